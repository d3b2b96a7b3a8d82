(** Specification of maps: bindings, newest first, no key twice. *)
From Verif Require Import Common.

Inductive mop (V : Type) :=
| MPut (v : V) (k : text) | MMsg (msg : text) (v : V) | MDel (k : text) | MAt (k : text) | MCount | MKeys | MValues.
Arguments MPut {V}. Arguments MMsg {V}. Arguments MDel {V}. Arguments MAt {V}. Arguments MCount {V}. Arguments MKeys {V}. Arguments MValues {V}.
Inductive mans (V : Type) :=
| MSame | MVal (o : option V) | MNum (n : nat) | MTexts (l : list text) | MVals (l : list V).
Arguments MSame {V}. Arguments MVal {V}. Arguments MNum {V}. Arguments MTexts {V}. Arguments MVals {V}.

Section S.
Context {V : Type}.
Definition text_dec (a b : text) : {a = b} + {a <> b} := list_eq_dec N.eq_dec a b.
Fixpoint lookup (l : list (text * V)) (k : text) : option V :=
  match l with [] => None | (k', v) :: l' => if text_dec k' k then Some v else lookup l' k end.
Definition without (l : list (text * V)) (k : text) : list (text * V) :=
  filter (fun kv => if text_dec (fst kv) k then false else true) l.
Definition with_binding (l : list (text * V)) (k : text) (v : V) : list (text * V) := (k, v) :: without l k.
(** the key in a message [key:] is the message without its colon *)
Definition msg_key (msg : text) : text := match msg with [] | [_] => msg | _ => removelast msg end.

Definition fm_step (l : list (text * V)) (o : mop V) : list (text * V) * mans V :=
  match o with
  | MPut v k => (with_binding l k v, MSame)
  | MMsg msg v => (with_binding l (msg_key msg) v, MSame)
  | MDel k => (without l k, MSame)
  | MAt k => (l, MVal (lookup l k))
  | MCount => (l, MNum (length l))
  | MKeys => (l, MTexts (map fst l))
  | MValues => (l, MVals (map snd l))
  end.
Fixpoint fm_run (l : list (text * V)) (os : list (mop V)) : list (text * V) * list (mans V) :=
  match os with
  | [] => (l, [])
  | o :: os' => let '(l1, r) := fm_step l o in let '(l2, rs) := fm_run l1 os' in (l2, r :: rs)
  end.
End S.
