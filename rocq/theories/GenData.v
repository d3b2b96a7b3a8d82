(** The headers of the languages, and a check of each of them. *)
From Verif Require Import Common Txt NumModel LexModel LangDicts RegTable MsgDicts1 MsgDicts2 MsgDicts3 MsgDicts4 RegModel HdrDicts TransModel TransSpec GenSpec.
From Coq Require Import String.
Local Open Scope nat_scope.

Definition column : Type := string * (bool * nat).
(** The value in a column: i18n/*/dictionary.h 1-201.  [ws], [os]: the entries of a language in the tables [dictionaries] and [others] *)
Definition cell (ws os : list string) (c : column) : text := let '(_, (b, i)) := c in lit (nth i (if b then ws else os) EmptyString).
Definition column_key (c : column) : text := lit (fst c).
Definition rows_of (ws os : list string) : list row := map (fun c => mkRow (column_key c) (cell ws os c) None) columns.
(** A language: its signs, its words *)
Definition language (l : string) (d : dict) (ws os : list string) : Prop := In (lit l, d) languages /\ In (l, ws) dictionaries /\ In (l, os) others.

(** ** A check of one language *)
Definition visible : list column := filter (fun c => negb (internal (column_key c))) columns.
Definition word_columns : list column := filter (fun c => (line_type (column_key c) =? 116)%N) visible.
Definition mark_columns : list column := map (fun '(k, i) => (k, (false, i)))
  [("CTR_DICT_END_OF_LINE", 5); ("CTR_DICT_MESSAGE_CHAIN", 16); ("CTR_DICT_ASSIGN", 17); ("CTR_DICT_RETURN", 23);
   ("CTR_DICT_QUOT_OPEN", 14); ("CTR_DICT_QUOT_CLOSE", 15); ("CTR_DICT_PARAMETER_PREFIX", 22)]%string.
Definition prefix_column : column := ("CTR_DICT_PARAMETER_PREFIX"%string, (false, 22)).
Definition dec_column : column := ("CTR_DICT_NUM_DEC_SEP"%string, (false, 12)).
Definition tho_column : column := ("CTR_DICT_NUM_THO_SEP"%string, (false, 13)).
Definition column_eqb (a b : column) : bool := let '(k, (x, i)) := a in let '(k', (x', i')) := b in String.eqb k k' && Bool.eqb x x' && (i =? i').
Fixpoint nodup_texts (l : list text) : bool := match l with [] => true | a :: r => negb (existsb (text_eqb a) r) && nodup_texts r end.
Fixpoint texts_eqb (l m : list text) : bool := match l, m with [], [] => true | a :: l', b :: m' => text_eqb a b && texts_eqb l' m' | _, _ => false end.
(** the last word that begins with the sign for parameters *)
Definition last_prefixed (d : dict) (ws os : list string) : option column :=
  fold_left (fun o c => if (line_type (column_key c) =? 116)%N && starts [d_prefix d] (cell ws os c) then Some c else o) visible None.
Definition value_okb (t : text) : bool := (0 <? List.length t) && (List.length t <? 180) && negb (among 34 t) && negb (among 35 t).
Definition language_okb (d : dict) (ws os : list string) : bool :=
  forallb (fun c => value_okb (cell ws os c)) columns
  && nodup_texts (map (cell ws os) word_columns)
  && texts_eqb (map (cell ws os) mark_columns) (marks d)
  && forallb (no_prefix d) (marks d)
  && text_eqb (cell ws os dec_column) (d_dec d) && text_eqb (cell ws os tho_column) (d_tho d)
  && match last_prefixed d ws os with Some c => column_eqb c prefix_column | None => false end.
Definition all_languages_ok : bool :=
  forallb (fun lo => forallb (fun lw => if String.eqb (fst lw) (fst lo) then
    forallb (fun ld => if text_eqb (fst ld) (lit (fst lo)) then language_okb (snd ld) (snd lw) (snd lo) else true) languages else true) dictionaries) others.
Definition key_okb (t : text) : bool := (0 <? List.length t) && (List.length t <? 180) && forallb (fun c => negb ((c =? 32) || (9 <=? c) && (c <=? 13))%N) t.
Definition columns_ok : bool :=
  forallb (fun c => key_okb (column_key c)) columns
  && forallb (fun m => existsb (column_eqb m) word_columns) mark_columns
  && match filter (fun c => (line_type (column_key c) =? 100)%N) visible with [c] => column_eqb c dec_column | _ => false end
  && match filter (fun c => (line_type (column_key c) =? 120)%N) visible with [c] => column_eqb c tho_column | _ => false end
  && forallb (fun c => existsb (N.eqb (line_type (column_key c))) [116; 100; 120]%N) visible
  && match rev visible with c :: _ => (line_type (column_key c) =? 116)%N | [] => false end.
Lemma languages_checked : all_languages_ok = true.
Proof. vm_compute. reflexivity. Qed.
Lemma columns_checked : columns_ok = true.
Proof. vm_compute. reflexivity. Qed.
