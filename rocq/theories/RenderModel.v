(** Model of rendering lists and maps as text: [string] on a list (collections.c 658-691),
    [string] on a map (collections.c 1058-1089) and [code] on an object (base.c 196-208).

    A value is a tree.  A leaf is an element whose [code] is a fixed text (a number, boolean,
    text or Nil); keys of maps are texts and are represented by their code.
    The static counters [call_depth] and the error [CtrStdFlow] form the state.
    The texts are those of the default dictionary i18n/xx/dictionary.h 1-5, 185-186. *)
From Verif Require Import Common.

Inductive value := Leaf (code : text) | VList (vs : list value) | VMap (kvs : list (text * value)).

(** citrine.h, [CTR_ERR_NESTING], [CTR_ERR_RSTR] *)
Inductive rerr := ENesting | ERStr.
Record rstate := mkR { r_list : Z; r_map : Z; r_err : option rerr }.

Definition bump (z d : Z) : Z := ((z + d) mod 256)%Z.   (* uint8_t *)

Definition s_list_new : text := [76;105;115;116;32;110;101;119;32]%N.            (* List new  *)
Definition s_list_push : text := [76;105;115;116;32;226;134;144;32]%N.           (* List <-  *)
Definition s_map_new : text := [40;77;97;112;32;110;101;119;41;32]%N.            (* (Map new)  *)
Definition s_put : text := [112;117;116;58]%N.                                   (* put: *)
Definition s_at : text := [32;97;116;58]%N.                                      (*  at: *)
Definition s_semi : text := [32;59;32]%N.
Definition s_comma : text := [44;32]%N.
Definition s_query : text := [63]%N.
Definition s_open : text := [40]%N.
Definition s_close : text := [41]%N.

(** base.c 1794-1813, [ctr_string_append]: [None] is the object Nil, which arises only as the
    answer of a message sent while an error is pending; casting it to text sends another
    message, whose answer Nil is replaced by "?" with a new error (world.c 460-470). *)
Definition append (acc : text) (o : option text) (st : rstate) : text * rstate :=
  match o with
  | Some t => (acc ++ t, st)
  | None => (acc ++ s_query, mkR (r_list st) (r_map st) (Some ERStr))
  end.

(** collections.c 678-687: the loop over the elements; [code] sends the message [code]. *)
Definition list_loop (code : value -> rstate -> option text * rstate) :=
  fix go (vs : list value) (acc : text) (st : rstate) : text * rstate :=
  match vs with
  | [] => (acc, st)
  | v :: vs' =>
      let '(o, st1) := code v st in
      let '(acc1, st2) := append acc o st1 in
      let acc2 := match vs' with [] => acc1 | _ => acc1 ++ s_semi end in
      go vs' acc2 st2
  end.
(** collections.c 1071-1085 *)
Definition map_loop (code : value -> rstate -> option text * rstate) :=
  fix go (kvs : list (text * value)) (acc : text) (st : rstate) : text * rstate :=
  match kvs with
  | [] => (acc, st)
  | (k, v) :: kvs' =>
      let '(o, st1) := code v st in
      let '(acc1, st2) := append (acc ++ s_put) o st1 in
      let '(acc2, st3) := append (acc1 ++ s_at) (match r_err st2 with None => Some k | Some _ => None end) st2 in
      let acc3 := match kvs' with [] => acc2 | _ => acc2 ++ s_comma end in
      go kvs' acc3 st3
  end.

(** The message [code] sent to a value: Nil if an error is pending (world.c 1058). *)
Fixpoint code (v : value) (st : rstate) {struct v} : option text * rstate :=
  match r_err st with
  | Some _ => (None, st)
  | None =>
      match v with
      | Leaf c => (Some c, st)
      | VList vs =>
          let d := bump (r_list st) 1 in
          if (99 <? d)%Z then (Some (s_open ++ [] ++ s_close), mkR d (r_map st) (Some ENesting))
          else
            let '(t, st') := list_loop code vs (match vs with [] => s_list_new | _ => s_list_push end)
                               (mkR d (r_map st) (r_err st)) in
            (Some (s_open ++ t ++ s_close), mkR (bump (r_list st') (-1)) (r_map st') (r_err st'))
      | VMap kvs =>
          let d := bump (r_map st) 1 in
          if (99 <? d)%Z then (Some (s_open ++ [] ++ s_close), mkR (r_list st) d (Some ENesting))
          else
            let '(t, st') := map_loop code kvs s_map_new (mkR (r_list st) d (r_err st)) in
            (Some (s_open ++ t ++ s_close), mkR (r_list st') (bump (r_map st') (-1)) (r_err st'))
      end
  end.

(** The message [string] sent to a list or map by the program, no error pending:
    collections.c 658-691, [ctr_array_to_string] *)
Definition array_to_string (vs : list value) (st : rstate) : text * rstate :=
  let d := bump (r_list st) 1 in
  if (99 <? d)%Z then ([], mkR d (r_map st) (Some ENesting))
  else
    let '(t, st') := list_loop code vs (match vs with [] => s_list_new | _ => s_list_push end)
                       (mkR d (r_map st) (r_err st)) in
    (t, mkR (bump (r_list st') (-1)) (r_map st') (r_err st')).
(** collections.c 1058-1089, [ctr_map_to_string] *)
Definition map_to_string (kvs : list (text * value)) (st : rstate) : text * rstate :=
  let d := bump (r_map st) 1 in
  if (99 <? d)%Z then ([], mkR (r_list st) d (Some ENesting))
  else
    let '(t, st') := map_loop code kvs s_map_new (mkR (r_list st) d (r_err st)) in
    (t, mkR (r_list st') (bump (r_map st') (-1)) (r_err st')).

(** A program that renders values one after another, handling ([catch:]) every error.
    [None]: the rendering failed. *)
Definition render (v : value) (lc mc : Z) : option text * (Z * Z) :=
  let '(t, st) := match v with
                  | Leaf c => (c, mkR lc mc None)
                  | VList vs => array_to_string vs (mkR lc mc None)
                  | VMap kvs => map_to_string kvs (mkR lc mc None)
                  end in
  (match r_err st with None => Some t | Some _ => None end, (r_list st, r_map st)).
Fixpoint renders (vs : list value) (lc mc : Z) : list (option text) :=
  match vs with
  | [] => []
  | v :: vs' => let '(r, (lc', mc')) := render v lc mc in r :: renders vs' lc' mc'
  end.
