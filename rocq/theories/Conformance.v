(** The project's own tests, run on the model.  They say nothing beyond these inputs; they are
    here as evidence that the model computes what the code computes.  The [Example]
    [test_x] is the test [x]; [dbg] is [true], as in a test build.  Left out: the tests on
    1000people.fleece (1.2 MB) and the reference count checked in alloced_value. *)
From Coq Require Import String Ascii.
From Verif Require Import Prelude Varint Utf8 Float SharedKeys Decode Read Encodable Encoder Isort Mutable Alloced Scopes Ser De.
Open Scope Z_scope.

(** A string literal as bytes. *)
Definition txt (s : string) : list Z := map (fun a => Z.of_nat (nat_of_ascii a)) (list_ascii_of_string s).
(** The test programs use only ASCII letters in keys. *)
Definition t_cfg : cfg := mk_cfg true (fun _ => false) isort.
(** [unwrap] / [expect] *)
Definition unwrap {A E} (m : outcome (result A E)) : outcome A :=
  r <- m ;; match r with Ok x => Ret x | Err _ => Panic end.
Definition unwrap_o {A} (m : outcome (option A)) : outcome A :=
  r <- m ;; match r with Some x => Ret x | None => Panic end.
Definition unwrap_e (m : eres) : outcome enc :=
  r <- m ;; match snd r with Ok _ => Ret (fst r) | Err _ => Panic end.
(** [assert!] *)
Definition check (b : bool) : outcome unit := if b then Ret tt else Panic.
Definition passes {A} (m : outcome A) : Prop := match m with Ret _ => True | _ => False end.

(** value/varint.rs:56-76 *)
Definition varint_test (n : Z) : bool :=
  let buf := varint_write n in
  (lenZ buf =? varint_size n) &&
  match varint_read true (fun i => match nthZ buf i with Some b => Ret b | None => Panic end) (lenZ buf) with
  | Ret (_, m) => m =? n
  | _ => false
  end.

(** 1person.fleece *)
Definition PERSON_ENCODED : list Z :=
  [67;95;105;100;79;24;53;54;53;49;54;99;56;49;98;56;54;52;57;52;50;101;49;97;99;99;97;54;100;57;69;97;98;111;
   117;116;79;229;2;69;108;105;116;32;117;116;32;100;117;105;115;32;100;101;115;101;114;117;110;116;32;101;
   120;99;101;112;116;101;117;114;32;105;100;32;105;110;32;116;101;109;112;111;114;32;105;112;115;117;109;32;
   115;117;110;116;46;32;80;97;114;105;97;116;117;114;32;117;108;108;97;109;99;111;32;117;108;108;97;109;99;
   111;32;97;108;105;113;117;97;32;100;111;108;111;114;101;32;97;108;105;113;117;97;32;100;111;32;101;97;32;
   109;111;108;108;105;116;32;101;115;116;32;97;117;116;101;32;100;111;108;111;114;101;46;32;65;109;101;116;
   32;113;117;105;32;118;101;108;105;116;32;115;105;116;32;97;108;105;113;117;105;112;32;105;112;115;117;109;
   32;100;101;115;101;114;117;110;116;32;118;101;110;105;97;109;32;99;117;112;105;100;97;116;97;116;32;118;
   111;108;117;112;116;97;116;101;32;110;105;115;105;32;101;108;105;116;46;32;69;115;116;32;100;111;108;111;
   114;32;101;110;105;109;32;101;105;117;115;109;111;100;32;97;109;101;116;32;116;101;109;112;111;114;32;99;
   117;108;112;97;32;99;111;109;109;111;100;111;32;100;111;108;111;114;46;32;78;111;115;116;114;117;100;32;97;
   117;116;101;32;100;101;115;101;114;117;110;116;32;100;111;32;113;117;105;32;100;111;108;111;114;46;32;65;
   100;32;101;120;101;114;99;105;116;97;116;105;111;110;32;105;100;32;115;105;116;32;97;110;105;109;32;100;
   101;115;101;114;117;110;116;32;101;105;117;115;109;111;100;32;101;108;105;116;46;13;10;71;97;100;100;114;
   101;115;115;79;39;57;50;55;32;72;105;110;115;100;97;108;101;32;83;116;114;101;101;116;44;32;86;105;114;103;
   105;101;44;32;79;104;105;111;44;32;52;52;51;54;0;67;97;103;101;71;98;97;108;97;110;99;101;73;36;49;44;52;
   53;56;46;56;50;71;99;111;109;112;97;110;121;70;66;76;69;69;75;79;0;69;101;109;97;105;108;79;22;103;108;101;
   110;100;97;109;111;114;115;101;64;98;108;101;101;107;111;46;99;111;109;72;101;121;101;67;111;108;111;114;0;
   68;98;108;117;101;0;71;102;114;105;101;110;100;115;66;105;100;0;68;110;97;109;101;0;79;15;77;97;103;100;97;
   108;101;110;97;32;77;111;111;114;101;0;112;2;128;15;0;0;128;15;128;13;66;105;100;0;68;110;97;109;101;0;78;
   87;97;116;116;115;32;84;111;119;110;115;101;110;100;0;112;2;128;14;0;1;128;14;128;12;66;105;100;0;68;110;
   97;109;101;0;77;79;119;101;110;115;32;69;118;101;114;101;116;116;112;2;128;13;0;2;128;13;128;11;96;3;128;
   41;128;24;128;8;70;103;101;110;100;101;114;0;70;102;101;109;97;108;101;0;68;103;117;105;100;0;79;36;99;50;
   98;54;49;100;48;100;45;97;99;56;51;45;52;55;102;54;45;97;101;53;57;45;98;54;97;56;101;51;98;102;51;97;98;
   56;69;105;110;100;101;120;72;105;115;65;99;116;105;118;101;0;72;108;97;116;105;116;117;100;101;0;40;0;97;
   23;69;15;124;120;68;64;73;108;111;110;103;105;116;117;100;101;40;0;93;169;103;65;40;39;53;192;68;110;97;
   109;101;0;76;71;108;101;110;100;97;32;77;111;114;115;101;0;69;112;104;111;110;101;79;17;43;49;32;40;57;49;
   49;41;32;52;49;51;45;50;52;52;51;0;71;112;105;99;116;117;114;101;79;25;104;116;116;112;58;47;47;112;108;97;
   99;101;104;111;108;100;46;105;116;47;51;50;120;51;50;0;74;114;101;103;105;115;116;101;114;101;100;0;79;26;
   50;48;49;52;45;48;49;45;50;56;84;48;53;58;51;55;58;48;51;32;43;48;56;58;48;48;68;116;97;103;115;0;68;113;
   117;105;115;0;71;108;97;98;111;114;117;109;71;111;102;102;105;99;105;97;75;97;100;105;112;105;115;105;99;
   105;110;103;66;101;116;0;71;108;97;98;111;114;117;109;70;116;101;109;112;111;114;0;96;7;128;28;128;26;128;
   23;128;20;128;15;128;14;128;11;68;116;121;112;101;0;70;112;101;114;115;111;110;0;112;21;129;236;129;235;
   129;223;129;221;129;42;129;39;129;19;0;30;129;19;129;16;129;12;129;9;129;6;129;4;128;249;128;245;128;243;
   128;186;128;183;128;180;128;177;128;175;128;157;0;0;128;156;56;0;128;153;128;149;128;145;128;141;128;137;
   128;135;128;129;128;127;128;118;128;115;128;102;128;97;128;84;128;55;128;48;128;46;128;43].
Definition person_env : env := mk_env true 65536 PERSON_ENCODED None.

(* ---------- src/tests.rs ---------- *)

(** lines 14-33 *)
Definition decode_person_checks (e : env) (person : val) : outcome unit :=
  t <- value_type e person ;; _ <- check (vtype_eqb t TyDict) ;;
  d <- unwrap_o (as_dict e person) ;;
  n <- dict_len e d ;; _ <- check (n =? 21) ;;
  age <- unwrap_o (dict_get e d (txt "age")) ;;
  t <- value_type e age ;; _ <- check (vtype_eqb t TyShort) ;;
  z <- to_short e age ;; _ <- check (z =? 30) ;;
  kvs <- dict_elems e d ;; check (lenZ kvs =? 21).

(** lines 35-40 *)
Example test_decode_person : passes (v <- unwrap (from_bytes person_env) ;; decode_person_checks person_env v).
Proof. vm_compute. exact I. Qed.

(** lines 79-92: the same bytes come out. *)
Example test_encode_person : passes (
  original <- unwrap (from_bytes person_env) ;;
  e <- unwrap_e (write_fleece (fuel_of person_env) t_cfg enc_new person_env original) ;;
  res <- finish t_cfg e ;;
  let m := mk_env true 131072 res None in
  v <- unwrap (from_bytes m) ;;
  _ <- check (bytes_eqb res PERSON_ENCODED) ;;
  decode_person_checks m v).
Proof. vm_compute. exact I. Qed.

(** lines 107-117 *)
Example test_encoder_multiple_top_level_collections : passes (
  e <- unwrap_e (begin_array enc_new 1) ;;
  e <- unwrap_e (write_value t_cfg e (EInt I32 42)) ;;
  e <- unwrap_e (end_array t_cfg e) ;;
  r <- begin_array e 1 ;;
  match snd r with Err MultiTopLevelCollection => Ret tt | _ => Panic end).
Proof. vm_compute. exact I. Qed.

(** lines 176-205; the scope's data is at 4096. *)
Example test_shared_keys : passes (
  let e := set_shared_keys enc_new [] in
  e <- unwrap_e (begin_dict e) ;;
  e <- unwrap_e (write_key t_cfg e (txt "name")) ;;
  e <- unwrap_e (write_value t_cfg e (EStr (txt "John"))) ;;
  e <- unwrap_e (write_key t_cfg e (txt "Address Line 1")) ;;
  e <- unwrap_e (write_value t_cfg e (EStr (txt "3250 Olcott St"))) ;;
  let '(o, w) := finish_scoped t_cfg world_new 4096 e in
  id <- o ;;
  scope <- unwrap_o (Ret (upgrade w id)) ;;
  keys <- unwrap_o (Ret (sc_sk scope)) ;;
  _ <- check (lenZ keys =? 1) ;;
  root <- unwrap_o (Ret (scope_root scope)) ;;
  found <- find_shared_keys w (4096 + v_pos (snd root)) ;;
  let m := mk_env true 4096 (fst root) found in
  d <- unwrap_o (as_dict m (snd root)) ;;
  name <- unwrap_o (dict_get m d (txt "name")) ;;
  s <- to_str m name ;; _ <- check (bytes_eqb s (txt "John")) ;;
  address <- unwrap_o (dict_get m d (txt "Address Line 1")) ;;
  s <- to_str m address ;; check (bytes_eqb s (txt "3250 Olcott St"))).
Proof. vm_compute. exact I. Qed.

(** lines 207-224 *)
Definition subset (a b : list (list Z)) : bool := forallb (fun x => existsb (bytes_eqb x) b) a.
Example test_shared_keys_iter : passes (
  value <- unwrap (from_bytes person_env) ;;
  e <- unwrap_e (write_fleece (fuel_of person_env) t_cfg (set_shared_keys enc_new []) person_env value) ;;
  let '(o, w) := finish_scoped t_cfg world_new 4096 e in
  id <- o ;;
  scope <- unwrap_o (Ret (upgrade w id)) ;;
  root <- unwrap_o (Ret (scope_root scope)) ;;
  found <- find_shared_keys w (4096 + v_pos (snd root)) ;;
  let m := mk_env true 4096 (fst root) found in
  sk_dict <- unwrap_o (as_dict m (snd root)) ;;
  non_sk_dict <- unwrap_o (as_dict person_env value) ;;
  a <- dict_elems m sk_dict ;;
  b <- dict_elems person_env non_sk_dict ;;
  check (subset (map fst a) (map fst b) && subset (map fst b) (map fst a))).
Proof. vm_compute. exact I. Qed.

(** lines 226-232 *)
Example test_alloced_value : passes (
  a <- unwrap (clone_from_bytes true 8192 None PERSON_ENCODED) ;;
  decode_person_checks (al_env a) (al_val a)).
Proof. vm_compute. exact I. Qed.

(** Reading the bytes an index expression gives. *)
Definition slot_env (bs : list Z) : env := mk_env true 256 bs None.
Definition slot_val (bs : list Z) : val := V 0 (lenZ bs).
Definition short_is (m : outcome (list Z)) (n : Z) : outcome unit :=
  bs <- m ;; z <- to_short (slot_env bs) (slot_val bs) ;; check (z =? n).
Definition text_is (m : outcome (list Z)) (s : string) : outcome unit :=
  bs <- m ;; t <- to_str (slot_env bs) (slot_val bs) ;; check (bytes_eqb t (txt s)).
Definition the_dict (s : slot) : outcome (list (mkey * slot) * option shared_keys) := unwrap_o (Ret (slot_dict s)).
Definition the_array (s : slot) : outcome (list slot) := unwrap_o (Ret (slot_array s)).

(** lines 234-251 *)
Example test_mutable_dict : passes (
  a <- unwrap (clone_from_bytes true 8192 None PERSON_ENCODED) ;;
  d <- unwrap_o (alloced_to_dict a) ;;
  s <- slot_from_fleece (fuel_of (al_env d)) true (al_env d) (al_val d) false ;;
  dict <- the_dict s ;;
  let '(m, sk) := dict in
  _ <- short_is (md_index m sk (txt "age")) 30 ;;
  m <- md_insert true m sk (txt "age") (EInt I32 52) ;;
  _ <- short_is (md_index m sk (txt "age")) 52 ;;
  let m := md_remove m sk (txt "age") in
  _ <- check (negb (md_contains m sk (txt "age"))) ;;
  new_dict <- the_dict (slot_clone (SDict m sk)) ;;
  _ <- check (negb (md_contains (fst new_dict) (snd new_dict) (txt "age"))) ;;
  m <- md_insert true m sk (txt "age") (EInt I32 28) ;;
  short_is (md_index m sk (txt "age")) 28).
Proof. vm_compute. exact I. Qed.

(** The tests' for loops over calls. *)
Fixpoint each {A} (f : A -> outcome unit) (l : list A) : outcome unit :=
  match l with [] => Ret tt | x :: l' => _ <- f x ;; each f l' end.
Definition run_ops (ops : list op) : outcome enc :=
  r <- enc_run t_cfg enc_new ops ;;
  _ <- each (fun x : result unit encode_error => match x with Ok _ => Ret tt | Err _ => Panic end) (snd r) ;; Ret (fst r).

(** lines 253-285 *)
Definition strings : list string := ["Zero"; "One"; "Two"; "Three"; "Four"; "Five"; "Six"]%string.
Example test_mutable_array : passes (
  e <- run_ops (OpBeginArray 7 :: map (fun s => OpValue (EStr (txt s))) strings ++ [OpEndArray]) ;;
  r <- finish_value t_cfg 8192 e ;;
  a <- unwrap_o (as_array (fst r) (snd r)) ;;
  s <- slot_from_fleece (fuel_of (fst r)) true (fst r) a false ;;
  l <- the_array s ;;
  _ <- each (fun i => text_is (ma_index l (Z.of_nat i)) (nth i strings EmptyString)) (seq 0 7) ;;
  l <- ma_push true l (EStr (txt "Seven")) ;;
  _ <- text_is (ma_index l (ma_len l - 1)) "Seven" ;;
  let l := ma_remove l 2 in
  _ <- text_is (ma_index l 2) "Three" ;;
  _ <- check (ma_len l =? 7) ;;
  l2 <- the_array (slot_clone (SArr l)) ;;
  _ <- text_is (ma_index l2 2) "Three" ;;
  text_is (ma_index l2 6) "Seven").
Proof. vm_compute. exact I. Qed.

(** lines 287-318; the calls the macro fleece! makes are written out (lib.rs:42-110). *)
Definition jeff : list op :=
  [OpBeginDict; OpKey (txt "name"); OpValue (EStr (txt "Jeff")); OpKey (txt "age"); OpValue (EInt I32 35);
   OpKey (txt "height"); OpValue (EF64 4640062214517030912); OpKey (txt "contact"); OpBeginDict;
   OpKey (txt "email"); OpValue (EStr (txt "contact@jeffbaggins.com"));
   OpKey (txt "phone_number"); OpValue (EStr (txt "+1 234 56789")); OpEndDict; OpEndDict].
Example test_nested_mutable_dict : passes (
  e <- run_ops jeff ;;
  r <- finish_value t_cfg 8192 e ;;
  d <- unwrap_o (as_dict (fst r) (snd r)) ;;
  s <- slot_from_fleece (fuel_of (fst r)) true (fst r) d false ;;
  dict <- the_dict s ;;
  let '(m, sk) := dict in
  contact <- unwrap_o (Ret (md_get_dict m sk (txt "contact"))) ;;
  _ <- text_is (md_index (fst contact) (snd contact) (txt "email")) "contact@jeffbaggins.com" ;;
  _ <- text_is (md_index (fst contact) (snd contact) (txt "phone_number")) "+1 234 56789" ;;
  s <- unwrap_o (mop_at true [MKey (txt "contact")] (MInsert (txt "Address") (EStr (txt "3250 Olcott St"))) s) ;;
  dict <- the_dict s ;;
  let '(m, sk) := dict in
  contact <- unwrap_o (Ret (md_get_dict m sk (txt "contact"))) ;;
  _ <- text_is (md_index (fst contact) (snd contact) (txt "Address")) "3250 Olcott St" ;;
  bs <- md_index (fst contact) (snd contact) (txt "email") ;;
  t <- to_str (slot_env bs) (slot_val bs) ;;
  e2 <- run_ops [OpBeginArray 10; OpValue (EStr t); OpValue (EStr (txt "jeff.baggins@example.com")); OpEndArray] ;;
  r2 <- finish_value t_cfg 8192 e2 ;;
  a2 <- unwrap_o (as_array (fst r2) (snd r2)) ;;
  s2 <- slot_from_fleece (fuel_of (fst r2)) true (fst r2) a2 false ;;
  let m := md_insert_slot m sk (txt "email") s2 in
  email <- unwrap_o (Ret (md_get_array m sk (txt "email"))) ;;
  _ <- text_is (ma_index email 0) "contact@jeffbaggins.com" ;;
  text_is (ma_index email 1) "jeff.baggins@example.com").
Proof. vm_compute. exact I. Qed.

(** lines 320-335 *)
Example test_nested_mutable_array : passes (
  e <- run_ops [OpBeginArray 10; OpValue (EInt I32 23); OpBeginDict; OpKey (txt "name"); OpValue (EStr (txt "Jeff"));
                OpKey (txt "age"); OpValue (EInt I32 35); OpEndDict; OpEndArray] ;;
  r <- finish_value t_cfg 8192 e ;;
  a <- unwrap_o (as_array (fst r) (snd r)) ;;
  _ <- debug_fmt (fst r) a ;;
  s <- slot_from_fleece (fuel_of (fst r)) true (fst r) a false ;;
  l <- the_array s ;;
  profile <- unwrap_o (Ret (ma_get_dict l 1)) ;;
  _ <- text_is (md_index (fst profile) (snd profile) (txt "name")) "Jeff" ;;
  _ <- short_is (md_index (fst profile) (snd profile) (txt "age")) 35 ;;
  s <- unwrap_o (mop_at true [MIdx 1] (MInsert (txt "Address") (EStr (txt "3250 Olcott St"))) s) ;;
  l <- the_array s ;;
  profile <- unwrap_o (Ret (ma_get_dict l 1)) ;;
  text_is (md_index (fst profile) (snd profile) (txt "Address")) "3250 Olcott St").
Proof. vm_compute. exact I. Qed.

(* ---------- src/value/varint.rs ---------- *)

Example test_varint : forallb varint_test [8704268; 100000; 603; 87] = true.
Proof. vm_compute. reflexivity. Qed.

(* ---------- tests/serde.rs ---------- *)

(** The types, lines 3-58. *)
Definition Class : sty :=
  YEnum [(txt "Maths", VUnit); (txt "English", VUnit);
         (txt "Science", VNewtype (YEnum [(txt "Physics", VUnit); (txt "Biology", VUnit); (txt "Chemistry", VUnit)]));
         (txt "Other", VNewtype YStr)].
Definition GamePlatform : sty := YEnum [(txt "PC", VUnit); (txt "PlayStation", VUnit); (txt "Xbox", VUnit)].
Definition Favourite : sty :=
  YEnum [(txt "Song", VStruct [(txt "artist", YStr); (txt "name", YStr)]);
         (txt "Movie", VNewtype YStr);
         (txt "Game", VStruct [(txt "name", YStr); (txt "platform", GamePlatform)])].
Definition Student : sty :=
  YStruct [(txt "id", YInt U64); (txt "name", YStr); (txt "age", YInt U16); (txt "favourite_class", YOpt Class);
           (txt "favourites", YSeq Favourite); (txt "lucky_floats", YOpt (YTuple [YF32; YF32; YF32]))].

(** lines 64-95 *)
Definition str (s : string) : sval := SStr (txt s).
Definition students : sval :=
  SSeq [SStruct [(txt "id", SInt U64 123456); (txt "name", str "Jens"); (txt "age", SInt U16 17);
                 (txt "favourite_class", SSome (SUnitVariant (txt "Maths")));
                 (txt "favourites", SSeq
                    [SStructVariant (txt "Song") [(txt "artist", str "Queen"); (txt "name", str "We Will Rock You")];
                     SStructVariant (txt "Game") [(txt "name", str "Doom"); (txt "platform", SUnitVariant (txt "PC"))]]);
                 (txt "lucky_floats", SNone)];
        SStruct [(txt "id", SInt U64 946); (txt "name", str "Bork"); (txt "age", SInt U16 16);
                 (txt "favourite_class", SSome (SNewtypeVariant (txt "Other") (str "Computer Science")));
                 (txt "favourites", SSeq
                    [SNewtypeVariant (txt "Movie") (str "Rogue One: A Star Wars Story");
                     SStructVariant (txt "Song") [(txt "artist", str "Linkin Park"); (txt "name", str "From the Inside")]]);
                 (txt "lucky_floats", SSome (STuple [SF32 1089866826; SF32 3254509901; SF32 1280826674]))]].
Definition no_names (n : nat) : sty := YUnit.

(** lines 97-121 *)
Example test_serde :
  (bs <-? to_bytes t_cfg students ;; match de_from_bytes no_names 100 (mk_env true 4096 bs None) (YSeq Student) with
     | Ret (Ok x) => Ret (Ok x) | Ret (Err _) => Panic | Panic => Panic | UB => UB | Diverge => Diverge end) = Ret (Ok students) /\
  (bs <-? to_bytes t_cfg (SUnitVariant (txt "Maths")) ;; match de_from_bytes no_names 100 (mk_env true 4096 bs None) Class with
     | Ret (Ok x) => Ret (Ok x) | Ret (Err _) => Panic | Panic => Panic | UB => UB | Diverge => Diverge end) = Ret (Ok (SUnitVariant (txt "Maths"))) /\
  to_bytes t_cfg (str "hihi") = Ret (Err SeValueNotCollection) /\
  to_bytes t_cfg SUnitStruct = Ret (Err SeValueNotCollection).
Proof. repeat split; vm_compute; reflexivity. Qed.

(** lines 127-176 *)
Example test_serde_shared_keys :
  let '(r, w) := to_bytes_with_shared_keys t_cfg world_new 4096 students in
  match r with
  | Ret (Ok id) => match upgrade w id with
                   | Some s => from_bytes_in no_names 100 w true 4096 (sc_data s) (YSeq Student) = Ret (Ok students)
                   | None => False
                   end
  | _ => False
  end.
Proof. vm_compute. reflexivity. Qed.
