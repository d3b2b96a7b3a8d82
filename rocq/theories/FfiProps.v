(** C106, C107: calling native functions and linking them. *)
From Coq Require Import String SpecFloat QArith.
From Verif Require Import Common Txt FloatSpec NumModel NumSpec NumProofs ListModel ListProofs BlobSpec BlobModel BlobProofs NativeProofs FfiModel FfiProofs.
Local Open Scope Z_scope.
Local Notation length := List.length.

(** ** C106.  A function linked with the types [ns], called with as many arguments of these types (none, one, two or three,
    or a list), gets them in that order in their native form, and the native answer is answered. *)
Theorem C106_call : forall addr native s props msg f ns ts rn ps args cs m c c',
  find props msg = Some f -> takes f ts -> Forall2 (fun n t => map_type (lit n) = Some t) ns ts ->
  map_type (lit rn) = Some (f_rtype f) -> given ps args -> all_passed s ns args cs ->
  native (f_symbol f) (s_mem s) cs = Ok (m, c ++ c') -> (8 <= length (c ++ c'))%nat ->
  (rn = "void"%string -> respond addr native s props msg ps = Ok (Answer (mkS m (s_blobs s)) BNil false)) /\
  (forall lo hi k z bs x, In (rn, (lo, hi, k)) c_types -> c = map Byte bs -> length bs = k -> bytes_for z bs -> lo <= z <= hi -> is_number x z ->
     exists y, is_number y z /\ respond addr native s props msg ps = Ok (Answer (mkS m (s_blobs s)) (BNum y) false)) /\
  (forall p, rn = "pointer"%string -> c = ptr_cells p ->
     respond addr native s props msg ps = Ok (Answer (mkS m (s_blobs s ++ [Some p])) (BBlob p) false)).
Proof. exact call_answers. Qed.
Print Assumptions C106_call.
(** A list of more than 20 is an error.  With any other number of arguments than that of the function the call is not defined. *)
Theorem C106_too_many : forall addr native s props msg f al, find props msg = Some f -> (20 < a_head al)%nat ->
  respond addr native s props msg (PList al) = Ok TooManyParameters.
Proof. exact call_too_long. Qed.
Print Assumptions C106_too_many.
Theorem C106_wrong_count : forall addr native s props msg f ts al, find props msg = Some f -> takes f ts -> a_head al <> length ts -> (a_head al <= 20)%nat ->
  respond addr native s props msg (PList al) = UB.
Proof. exact call_wrong_count. Qed.
Print Assumptions C106_wrong_count.
Theorem C106_unknown : forall addr native s props msg ps, find props msg = None -> respond addr native s props msg ps = Ok Unknown.
Proof. intros addr native s props msg ps H. unfold respond. now rewrite H. Qed.
Print Assumptions C106_unknown.

(** A function that subtracts two [int] *)
Definition nowhere : ptr -> N := fun _ => 0%N.
Definition num (z : Z) : arg := ANum (of_Z z).
Definition empty_st : st := mkS [] [].
Definition list_of {A} (ls : list A) : @arr A := mkA (S (length ls)) (length ls) 0 (map Some ls ++ [None]).
Definition int_in (c : list mval) : Z := as_signed 4 (cells_value nowhere (firstn 4 c)).
Definition subtract : nat -> mem -> list (list mval) -> outcome (mem * list mval) := fun _ m cs =>
  match cs with [a; b] => Ok (m, map Byte (le_Z 4 (int_in a - int_in b)) ++ repeat (Byte 0) 4) | _ => UB end.
Definition int_t := FInt true 4.
Definition minus : ffi := mkF (Some 0%nat) 0 ([Some int_t; Some int_t] ++ repeat None 18) int_t 2 0.
Example C106_example :
  respond nowhere subtract empty_st [(lit "minus:and:", minus)] (lit "minus:and:") (P2 (num 5) (num 7)) = Ok (Answer empty_st (BNum (of_Z (-2))) false) /\
  respond nowhere subtract empty_st [(lit "minus:", minus)] (lit "minus:") (PList (list_of [num 5; num 7])) = Ok (Answer empty_st (BNum (of_Z (-2))) false) /\
  takes minus [int_t; int_t] /\ Forall2 (fun n t => map_type (lit n) = Some t) ["int"%string; "int"%string] [int_t; int_t] /\
  map_type (lit "int") = Some (f_rtype minus) /\ given (PList (list_of [num 5; num 7])) [num 5; num 7] /\
  all_passed empty_st ["int"%string; "int"%string] [num 5; num 7] [map Byte [5; 0; 0; 0]%N; map Byte [7; 0; 0; 0]%N] /\
  bytes_for (-2) [254; 255; 255; 255]%N.
Proof.
  split; [vm_compute; reflexivity|]. split; [vm_compute; reflexivity|]. split; [repeat split; cbn; auto with arith|].
  split; [repeat constructor|]. split; [reflexivity|]. split; [constructor; exists [None]; repeat split; discriminate|].
  assert (I : In ("int"%string, (-2147483648, 2147483647, 4%nat)) c_types) by (cbn; tauto).
  split; [|split; [repeat constructor|reflexivity]].
  constructor; [apply (pa_int _ _ _ _ _ _ 5 _ I); [apply is_number_of_Z; vm_compute; congruence|split; discriminate|split; [repeat constructor|reflexivity]|reflexivity]|].
  constructor; [apply (pa_int _ _ _ _ _ _ 7 _ I); [apply is_number_of_Z; vm_compute; congruence|split; discriminate|split; [repeat constructor|reflexivity]|reflexivity]|].
  constructor.
Qed.

(** Refuted: with a list of the right length from which the first was removed the call is not defined; with one argument more than the function has
    (there is a check, of too many) the call is not defined. *)
Theorem C106_shifted_refuted : exists al, ListProofs.holds al [num 7] /\
  respond nowhere (fun _ m cs => match cs with [a] => Ok (m, a ++ repeat (Byte 0) 4) | _ => UB end) empty_st
    [(lit "same:", mkF (Some 0%nat) 0 (Some int_t :: repeat None 19) int_t 1 0)] (lit "same:") (PList al) = UB.
Proof. exists (mkA 3 2 1 [Some (num 5); Some (num 7); None]). split; [exists [num 5], [None]; repeat split; discriminate|reflexivity]. Qed.
Print Assumptions C106_shifted_refuted.
Theorem C106_one_more_refuted : exists al, ListProofs.fresh al [num 5; num 7; num 9] /\
  respond nowhere subtract empty_st [(lit "minus:", minus)] (lit "minus:") (PList al) = UB.
Proof. exists (list_of [num 5; num 7; num 9]). split; [exists [None]; repeat split; discriminate|vm_compute; reflexivity]. Qed.
Print Assumptions C106_one_more_refuted.
(** Refuted: a number where a pointer is asked raises an error, but the function is called all the same, with NULL. *)
Theorem C106_called_anyway_refuted : exists r, respond nowhere (fun _ m cs => match cs with [a] => Ok (m, a) | _ => UB end) empty_st
    [(lit "same:", mkF (Some 0%nat) 0 (Some FPointer :: repeat None 19) FPointer 1 0)] (lit "same:") (P1 (num 5)) = Ok (Answer r (BBlob PNull) true).
Proof. eexists. reflexivity. Qed.
Print Assumptions C106_called_anyway_refuted.

(** ** C107.  A proper specification makes a new object of that name with the message; objects of other names are as they were. *)
Theorem C107_link : forall nil_text list_text dlopen dlsym prep w spec obj msg h sym ts r,
  sound w -> spec_of dlopen dlsym prep spec (Some obj) msg h sym ts r ->
  exists w' f, media_link nil_text list_text dlopen dlsym prep w (LSpec spec) = Ok (w', None) /\ sound w' /\ w_prev w' = Some f /\
    bound w' obj (cstring msg) f /\ takes f ts /\ f_symbol f = sym /\ f_rtype f = r /\
    (forall obj' msg' g, obj' <> obj -> (bound w' obj' msg' g <-> bound w obj' msg' g)) /\
    (forall msg' g, msg' <> cstring msg -> ~ bound w' obj msg' g).
Proof. exact link_new. Qed.
Print Assumptions C107_link.
(** With Nil for the object, the message is added to the object of the function before; nothing else changes. *)
Theorem C107_link_more : forall nil_text list_text dlopen dlsym prep w spec msg h sym ts r p,
  sound w -> w_prev w = Some p -> spec_of dlopen dlsym prep spec None msg h sym ts r ->
  exists w' f, media_link nil_text list_text dlopen dlsym prep w (LSpec spec) = Ok (w', None) /\ sound w' /\ w_prev w' = Some f /\
    takes f ts /\ f_symbol f = sym /\ f_rtype f = r /\ f_owner f = f_owner p /\
    (forall obj, find (w_objects w) obj = Some (f_owner p) -> bound w' obj (cstring msg) f) /\
    (forall obj msg' g, msg' <> cstring msg \/ find (w_objects w) obj <> Some (f_owner p) -> (bound w' obj msg' g <-> bound w obj msg' g)).
Proof. exact link_again. Qed.
Print Assumptions C107_link_more.
(** Every error but the last leaves the objects and functions as they were. *)
Theorem C107_errors : forall nil_text list_text dlopen dlsym prep w spec w' e,
  media_link nil_text list_text dlopen dlsym prep w (LSpec spec) = Ok (w', Some e) -> e <> NoMessage ->
  w_objects w' = w_objects w /\ w_owners w' = w_owners w /\ w_prev w' = w_prev w.
Proof.
  intros nil_text list_text dlopen dlsym prep w spec w' e H N. cbn [media_link] in H.
  destruct (media_ffi nil_text list_text dlopen dlsym prep w spec) as [[[e1 w1]|w1]|] eqn:E; cbn [obind] in H; try discriminate.
  injection H as <- ->. rewrite (ffi_error_same nil_text list_text dlopen dlsym prep w spec e w1 E N). auto.
Qed.
Print Assumptions C107_errors.
(** What is not proper in a specification is reported, the first problem first. *)
Theorem C107_reported : forall nil_text list_text dlopen dlsym prep w spec ls e,
  ListProofs.fresh spec ls -> wrong dlopen dlsym prep w ls e ->
  exists w', media_link nil_text list_text dlopen dlsym prep w (LSpec spec) = Ok (w', Some e) /\
    w_objects w' = w_objects w /\ w_owners w' = w_owners w /\ w_prev w' = w_prev w.
Proof.
  intros nil_text list_text dlopen dlsym prep w spec ls e F W. cbn [media_link].
  rewrite (ffi_wrong nil_text list_text dlopen dlsym prep w spec ls e F W). cbn [obind]. eexists. split; [reflexivity|]. auto.
Qed.
Print Assumptions C107_reported.

(** A library with two functions *)
Definition lib_open : text -> option nat := fun p => if text_eqb p (lit "libm.so") then Some 1%nat else None.
Definition lib_sym : option nat -> text -> option nat := fun _ n => if text_eqb n (lit "sin") then Some 1%nat else if text_eqb n (lit "cos") then Some 2%nat else None.
Definition any_prep : option Z -> nat -> list (option ffity) -> ffity -> bool := fun _ _ _ _ => true.
Definition real_spec (name : string) (obj : item) (msg : string) : @arr item :=
  list_of [IText (lit "libm.so"); IText (lit name); ITypes (list_of [lit "double"]); IText (lit "double"); obj; IText (lit msg)].
Definition none : world := mkW [] [] None NoPackage.
Definition link w spec := match media_link (lit "Nil") [] lib_open lib_sym any_prep w (LSpec spec) with Ok (w', None) => w' | _ => none end.
Example C107_example :
  let w := link none (real_spec "sin" (IText (lit "Math")) "sin:") in
  let w' := link w (real_spec "cos" INil "cos:") in
  sound none /\ spec_of lib_open lib_sym any_prep (real_spec "sin" (IText (lit "Math")) "sin:") (Some (lit "Math")) (lit "sin:") 1 1 [FDouble] FDouble /\
  spec_of lib_open lib_sym any_prep (real_spec "cos" INil "cos:") None (lit "cos:") 1 2 [FDouble] FDouble /\
  (exists f, bound w' (lit "Math") (lit "sin:") f /\ f_symbol f = 1%nat) /\ (exists f, bound w' (lit "Math") (lit "cos:") f /\ f_symbol f = 2%nat).
Proof.
  cbv zeta. split; [split; intros; discriminate|].
  assert (SP : forall name obj msg o, (name = "sin"%string /\ o = 1%nat \/ name = "cos"%string /\ o = 2%nat) ->
    spec_of lib_open lib_sym any_prep (real_spec name match obj with Some x => IText x | None => INil end msg) obj (lit msg) 1 o [FDouble] FDouble).
  { intros name obj msg o H. exists (lit "libm.so"), (lit name), (lit "double"), (list_of [lit "double"]), [lit "double"].
    split; [exists [None]; repeat split; discriminate|]. split; [exists [None]; repeat split; discriminate|]. split; [cbn; auto with arith|].
    split; [repeat constructor|]. split; [reflexivity|]. destruct H as [[-> ->]|[-> ->]]; repeat split. }
  split; [apply (SP "sin"%string (Some (lit "Math")) "sin:"%string); auto|]. split; [apply (SP "cos"%string None "cos:"%string); auto|].
  split; (eexists; split; [eexists _, _; split; [reflexivity|]; split; [reflexivity|reflexivity]|reflexivity]).
Qed.

(** Refuted: a second function for an object of the same name makes a new object, the first function is gone. *)
Theorem C107_hides_refuted : exists f,
  let w := link none (real_spec "sin" (IText (lit "Math")) "sin:") in
  let w' := link w (real_spec "cos" (IText (lit "Math")) "cos:") in
  bound w (lit "Math") (lit "sin:") f /\ (forall g, ~ bound w' (lit "Math") (lit "sin:") g) /\ (exists g, bound w' (lit "Math") (lit "cos:") g).
Proof.
  eexists. cbv zeta. split; [eexists _, _; split; [reflexivity|]; split; [reflexivity|reflexivity]|]. split.
  - intros g (o & props & H1 & H2 & H3). vm_compute in H1. injection H1 as <-. vm_compute in H2. injection H2 as <-. vm_compute in H3. discriminate.
  - eexists _, _, _. split; [reflexivity|]. split; reflexivity.
Qed.
Print Assumptions C107_hides_refuted.
Example C107_reported_example : ListProofs.fresh (real_spec "tan" (IText (lit "Math")) "tan:")
    [IText (lit "libm.so"); IText (lit "tan"); ITypes (list_of [lit "double"]); IText (lit "double"); IText (lit "Math"); IText (lit "tan:")] /\
  wrong lib_open lib_sym any_prep none
    [IText (lit "libm.so"); IText (lit "tan"); ITypes (list_of [lit "double"]); IText (lit "double"); IText (lit "Math"); IText (lit "tan:")] NotFound.
Proof. split; [exists [None]; repeat split; discriminate|]. apply wr_found with (h := 1%nat); reflexivity. Qed.
(** Refuted: linking a function after a package of assets: loading any asset is not defined. *)
Theorem C107_assets_refuted : forall path, exists w w', w = mkW [] [] None (PackageAt path) /\
  media_link (lit "Nil") [] lib_open lib_sym any_prep w (LSpec (real_spec "sin" (IText (lit "Math")) "sin:")) = Ok (w', None) /\
  (exists f, asset_file w (lit "a.png") = Ok f) /\ forall name, asset_file w' name = UB.
Proof. intros path. eexists _, _. split; [reflexivity|]. split; [reflexivity|]. split; [eexists; reflexivity|reflexivity]. Qed.
Print Assumptions C107_assets_refuted.
(** Refuted: without a message there is an error, but the object was made, in place of another. *)
Theorem C107_no_message_refuted : exists w', let w := link none (real_spec "sin" (IText (lit "Math")) "sin:") in
  media_link (lit "Nil") [] lib_open lib_sym any_prep w
    (LSpec (list_of [IText (lit "libm.so"); IText (lit "cos"); ITypes (list_of [lit "double"]); IText (lit "double"); IText (lit "Math"); INil])) = Ok (w', Some NoMessage) /\
  (exists f, bound w (lit "Math") (lit "sin:") f) /\ forall g, ~ bound w' (lit "Math") (lit "sin:") g.
Proof.
  eexists. cbv zeta. split; [reflexivity|]. split; [eexists _, _, _; split; [reflexivity|]; split; reflexivity|].
  intros g (o & props & H1 & H2 & H3). vm_compute in H1. injection H1 as <-. vm_compute in H2. injection H2 as <-. vm_compute in H3. discriminate.
Qed.
Print Assumptions C107_no_message_refuted.
