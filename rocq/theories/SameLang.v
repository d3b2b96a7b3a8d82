(** The messages of the standard objects keep their part in every language. *)
From Coq Require Import NArith List String Lia.
From Verif Require Import Common Txt TextSpec LexModel Dicts LangDicts RegTable RegModel RegCheck RegProofs ParseSpec.
From Verif Require ParseProofs.
Import ListNotations.
Open Scope nat_scope.
Definition alike (w w' : text) : bool :=
  match chars w, chars w' with
  | Some cs, Some cs' => Bool.eqb (length cs =? 1) (length cs' =? 1) && (length w <=? 200) && (length w' <=? 200)
  | _, _ => false
  end.
Definition messages_alike (l : string) (d : dict) (ws : list string) : bool :=
  forallb (fun r => alike (key_text dict_en english (snd (fst r))) (key_text d ws (snd (fst r)))) registrations.
Lemma alike_all : each_language messages_alike = true.
Proof. vm_compute. reflexivity. Qed.
Lemma one_char w cs : chars w = Some cs -> length w <= 200 -> (single w <-> length cs = 1) /\ (several w <-> length cs <> 1).
Proof.
  intros E L. pose proof (chars_ok _ _ E) as C.
  assert (N : single w -> several w -> False).
  { intros S V. destruct (ParseProofs.utf8_several w V) as (u & E1 & N). rewrite (ParseProofs.utf8_single w S) in E1; [injection E1 as E1; congruence|]. unfold W64. lia. }
  assert (A : length cs = 1 -> single w).
  { intros H. destruct cs as [|c [|]]; try discriminate. destruct C as (F & ->). cbn [concat]. rewrite app_nil_r. now inversion F. }
  assert (B : length cs <> 1 -> several w). { intros H. exists cs. split; [exact C|]. split; [exact H|]. unfold W64. lia. }
  split; split; auto.
  - intros S. destruct (Nat.eq_dec (length cs) 1); [assumption|]. exfalso. auto.
Qed.
Lemma alike_ok w w' : alike w w' = true -> (single w <-> single w') /\ (several w <-> several w').
Proof.
  unfold alike. destruct (chars w) as [cs|] eqn:E; [|discriminate]. destruct (chars w') as [cs'|] eqn:E'; [|discriminate]. intros H.
  apply andb_prop in H as [H H3]. apply andb_prop in H as [H1 H2]. apply Nat.leb_le in H2, H3. apply Bool.eqb_prop in H1.
  destruct (one_char w cs E H2) as (A & B). destruct (one_char w' cs' E' H3) as (A' & B'). rewrite A, B, A', B'.
  destruct (Nat.eqb_spec (length cs) 1), (Nat.eqb_spec (length cs') 1); try discriminate; tauto.
Qed.
Theorem part_kept l d ws l' d' ws' o k f : In (lit l, d) languages -> In (l, ws) dictionaries -> In (lit l', d') languages -> In (l', ws') dictionaries ->
  In (o, k, f) registrations ->
  (single (key_text d ws k) <-> single (key_text d' ws' k)) /\ (several (key_text d ws k) <-> several (key_text d' ws' k)).
Proof.
  intros A B A' B' R.
  assert (X : forall l d ws, In (lit l, d) languages -> In (l, ws) dictionaries -> alike (key_text dict_en english k) (key_text d ws k) = true).
  { intros l0 d0 ws0 P Q. pose proof (each_language_ok _ alike_all l0 d0 ws0 P Q) as H. unfold messages_alike in H. rewrite forallb_forall in H. exact (H _ R). }
  destruct (alike_ok _ _ (X _ _ _ A B)) as (S1 & S2). destruct (alike_ok _ _ (X _ _ _ A' B')) as (S3 & S4). tauto.
Qed.
