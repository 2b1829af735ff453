-Q theories Verif
theories/Prelude.v
theories/Spec.v
theories/Varint.v
theories/Utf8.v
theories/Float.v
theories/SharedKeys.v
theories/Decode.v
theories/Read.v
theories/Encodable.v
theories/Encoder.v
theories/BuilderSpec.v
theories/LayoutSpec.v
theories/TotalSpec.v
theories/Lib.v
theories/VarintProofs.v
theories/FloatProofs.v
theories/Properties_Varint.v
theories/Holds.v
theories/Repr.v
theories/EncodableProofs.v
theories/Stored.v
theories/StoredRead.v
theories/SlotProofs.v
theories/EncoderProofs.v
theories/EncoderInv.v
theories/EncoderClean.v
theories/EncoderLayout.v
theories/EncoderProtocol.v
theories/EncoderLimit.v
theories/EncoderTotal.v
theories/Isort.v
theories/Properties_Encoder.v
theories/Properties_Total.v
theories/Damage.v
theories/Properties_Damage.v
theories/PathSpec.v
theories/Lookup.v
theories/Path.v
theories/ValueSpec.v
theories/Constants.v
theories/Access.v
theories/Flat.v
theories/PathDoc.v
theories/Properties_Lookup.v
theories/Values.v
theories/Properties_Values.v
theories/KeptSpec.v
theories/Kept.v
theories/Properties_Kept.v
theories/FloatRange.v
theories/NumberSpec.v
theories/NumberProofs.v
theories/Properties_Number.v
theories/CopySpec.v
theories/Copy.v
theories/Properties_Copy.v
theories/SharedKeysState.v
theories/SharedKeysSpec.v
theories/SharedKeysProofs.v
theories/Properties_SharedKeys.v
theories/ReadSpec.v
theories/Safety.v
theories/Agree.v
theories/Navigate.v
theories/Properties_Safety.v
theories/PanicSpec.v
theories/Panics.v
theories/Properties_Panics.v
theories/GrammarSpec.v
theories/Grammar.v
theories/Properties_Grammar.v
theories/Mutable.v
theories/MutableSpec.v
theories/MutableSlot.v
theories/MutableProofs.v
theories/MutableValue.v
theories/Properties_Mutable.v
theories/Scopes.v
theories/ScopeSpec.v
theories/ScopeProofs.v
theories/ScopeDoc.v
theories/Properties_Scope.v
theories/Ser.v
theories/De.v
theories/SerdeSpec.v
theories/SerProofs.v
theories/DeProofs.v
theories/SerdeProofs.v
theories/SerdeShared.v
theories/Properties_Serde.v
theories/Alloced.v
theories/Place.v
theories/Properties_Place.v
theories/IsMutable.v
theories/Parity.v
theories/Properties_Identity.v
theories/Cost.v
theories/CostSpec.v
theories/CostProofs.v
theories/CostDoc.v
theories/Properties_Cost.v
theories/DetSpec.v
theories/Determined.v
theories/Properties_Det.v
theories/ViewSpec.v
theories/Views.v
theories/Properties_Views.v
theories/Entry.v
theories/Properties_Entry.v
theories/FromScope.v
theories/FromScopeProofs.v
theories/Properties_Convert.v
theories/UntrustedSpec.v
theories/Untrusted.v
theories/Properties_Untrusted.v
theories/TextSpec.v
theories/TextProofs.v
theories/TextUse.v
theories/Properties_Text.v
theories/Restore.v
theories/Properties_Restore.v
theories/Threads.v
theories/ThreadsSpec.v
theories/ThreadsProofs.v
theories/Properties_Threads.v
theories/Macro.v
theories/MacroSpec.v
theories/MacroProofs.v
theories/Properties_Macro.v
theories/Owners.v
theories/OwnersSpec.v
theories/OwnersProofs.v
theories/Properties_Owners.v
theories/BuildSpec.v
theories/Builds.v
theories/BuildsWrite.v
theories/Properties_Builds.v
theories/AscendSpec.v
theories/Ascend.v
theories/Properties_Ascend.v
theories/AroundSpec.v
theories/Around.v
theories/AroundUse.v
theories/Properties_Around.v
theories/StableSpec.v
theories/Stable.v
theories/Properties_Stable.v
theories/SizeSpec.v
theories/Size.v
theories/Properties_Size.v
theories/Show.v
theories/ShowSpec.v
theories/ShowProofs.v
theories/Properties_Show.v
theories/MeaningSpec.v
theories/Meaning.v
theories/Properties_Meaning.v
theories/FaithfulSpec.v
theories/Faithful.v
theories/Properties_Faithful.v
theories/ScopeEq.v
theories/ScopeEqProofs.v
theories/Properties_ScopeEq.v
theories/SharedKeysIter.v
theories/SharedKeysIterProofs.v
theories/Properties_SharedKeysIter.v
theories/Properties_Limits.v
theories/LookupCost.v
theories/LookupCostProofs.v
theories/Properties_LookupCost.v
theories/Strict.v
theories/StrictProofs.v
theories/Properties_Strict.v
theories/SeriesSpec.v
theories/SeriesProofs.v
theories/Properties_Series.v
theories/OccupySpec.v
theories/OccupyProofs.v
theories/Properties_Occupy.v
theories/OrderProofs.v
theories/Properties_Order.v
theories/StableAny.v
theories/EditSpec.v
theories/EditProofs.v
theories/Properties_Edit.v
theories/AlikeSpec.v
theories/AlikeProofs.v
theories/AlikeEnums.v
theories/Properties_Alike.v
theories/FieldsSpec.v
theories/FieldsProofs.v
theories/Properties_Fields.v
theories/ToldSpec.v
theories/ToldProofs.v
theories/Properties_Told.v
theories/FitProofs.v
theories/FitNamed.v
theories/Properties_Fit.v
theories/Conformance.v
