(** Requests of a web server by SCGI, the processes of a server, and sealed texts, independent of the code. *)
From Coq Require Import ZArith.
From Verif Require Import Common CodecSpec.
Local Open Scope N_scope.

(** ** SCGI: variables, and what is sent for them *)
Definition vars := list (text * text).
Definition no_zero (t : text) : Prop := ~ In 0 t.
Definition sendable (v : vars) : Prop := Forall (fun p => no_zero (fst p) /\ no_zero (snd p)) v.
Definition sent (v : vars) : text := flat_map (fun p => fst p ++ 0 :: snd p ++ [0]) v.
(** digits that stand for [n] *)
Definition is_digit (c : N) : Prop := 48 <= c <= 57.
Fixpoint value (acc : Z) (ds : text) : Z := match ds with [] => acc | d :: r => value (acc * 10 + (Z.of_N d - 48))%Z r end.
Definition numeral (ds : text) (n : Z) : Prop := Forall is_digit ds /\ value 0 ds = n.
(** A request: how long the variables are, a colon, the variables, a comma; the rest is the body *)
Definition request (ds : text) (v : vars) (body : text) : text := ds ++ 58 :: sent v ++ 44 :: body.
(** Looking a variable up in an environment ([NAME=value]) *)
Fixpoint strip (p t : text) : option text :=
  match p, t with [], _ => Some t | x :: p', y :: t' => if x =? y then strip p' t' else None | _ :: _, [] => None end.
Fixpoint getenv (env : list text) (name : text) : option text :=
  match env with [] => None | e :: r => match strip (name ++ [61]) e with Some v => Some v | None => getenv r name end end.
Fixpoint var (v : vars) (name : text) : option text :=
  match v with [] => None | (n, x) :: r => if list_eq_dec N.eq_dec n name then Some x else var r name end.

(** ** Processes: what children say, the latest last; a new child is idle *)
Inductive happens := Born (pid : Z) | Says (pid : Z) (busy : bool) | Dies (pid : Z).
Fixpoint busy_after (pid : Z) (b : bool) (tr : list happens) : bool :=
  match tr with
  | [] => b
  | Born p :: r => busy_after pid (if (p =? pid)%Z then false else b) r
  | Says p c :: r => busy_after pid (if (p =? pid)%Z then c else b) r
  | Dies _ :: r => busy_after pid b r
  end.

(** ** A digest and a cipher: what is expected of SHA1 and AES-256-CBC *)
Record cipher (sha1 : text -> text) (aes unaes : text -> text -> text -> text) : Prop := {
  sha_size : forall x, length (sha1 x) = 20%nat;
  sha_bytes : forall x, bytes (sha1 x);
  aes_size : forall s w x, length (aes s w x) = (16 * (Nat.div (length x) 16 + 1))%nat;
  aes_bytes : forall s w x, bytes (aes s w x);
  unaes_size : forall s w x, (length (unaes s w x) <= length x)%nat;
  unaes_aes : forall s w x, bytes x -> unaes s w (aes s w x) = x
}.
(** One there is, though it hides nothing *)
Definition toy_sha (x : text) : text := firstn 20 (map (fun c => c mod 256) x ++ repeat 0 20).
Definition toy_pad (x : text) : nat := (16 * (Nat.div (length x) 16 + 1) - length x)%nat.
Definition toy_aes (s w x : text) : text := map (fun c => c mod 256) x ++ repeat (N.of_nat (toy_pad x)) (toy_pad x).
Definition toy_unaes (s w x : text) : text := firstn (length x - N.to_nat (last x 0)) x.
