(** Specification of tokens and text literals, independent of the lexer. *)
From Verif Require Import Common LexModel.
Open Scope nat_scope.

Definition prefix (p t : text) : Prop := exists r, t = p ++ r.
Definition suffix (s t : text) : Prop := exists p, t = p ++ s.
(** Neither can begin where the other one does. *)
Definition apart (a b : text) : Prop := exists p x y a' b', a = p ++ x :: a' /\ b = p ++ y :: b' /\ x <> y.

(** The bytes with a meaning behind a backslash. *)
Inductive escaped : N -> N -> Prop :=
| esc_n : escaped 110 10 | esc_r : escaped 114 13 | esc_t : escaped 116 9 | esc_v : escaped 118 11
| esc_b : escaped 98 8 | esc_a : escaped 97 7 | esc_f : escaped 102 12 | esc_0 : escaped 48 0
| esc_other c : ~ In c [110; 114; 116; 118; 98; 97; 102; 48]%N -> escaped c c.

(** Where a literal has no special meaning: no quotation mark and no sign begins at [t]. *)
Definition unmarked (d : dict) (t : text) : Prop :=
  ~ prefix (d_qo d) t /\ ~ prefix (d_qc d) t /\ ~ prefix newline_sign t /\ ~ prefix tab_sign t.

(** [denotes d k src t]: the source text [src], followed by [k], stands for the text [t]. *)
Inductive denotes (d : dict) : text -> text -> text -> Prop :=
| den_nil k : denotes d k [] []
| den_byte k c src t : c <> 92%N -> unmarked d (c :: src ++ k) -> denotes d k src t ->
    denotes d k (c :: src) (c :: t)
| den_escape k c x src t : escaped c x -> denotes d k src t ->
    denotes d k (92%N :: c :: src) (x :: t)
| den_newline k src t : denotes d k src t -> denotes d k (newline_sign ++ src) (10%N :: t)
| den_tab k src t : denotes d k src t -> denotes d k (tab_sign ++ src) (9%N :: t)
| den_quote k inner ti src t :
    denotes d (d_qc d ++ src ++ k) inner ti -> denotes d k src t ->
    denotes d k (d_qo d ++ inner ++ d_qc d ++ src) (d_qo d ++ ti ++ d_qc d ++ t).

(** Requirements on the words of a language. *)
Definition no_nul (t : text) : Prop := ~ In 0%N t.
Record marks_ok (d : dict) : Prop := {
  mo_qo : d_qo d <> []; mo_qc : d_qc d <> [];
  mo_qo_len : length (d_qo d) <= 10; mo_qc_len : length (d_qc d) <= 10;
  mo_qo_bytes : ~ In 92%N (d_qo d) /\ no_nul (d_qo d);
  mo_qc_bytes : ~ In 92%N (d_qc d) /\ no_nul (d_qc d);
  mo_apart : apart (d_qo d) (d_qc d);
  mo_signs : apart (d_qo d) newline_sign /\ apart (d_qo d) tab_sign /\
             apart (d_qc d) newline_sign /\ apart (d_qc d) tab_sign;
  mo_first : escaped (hd 0%N (d_qo d)) (hd 0%N (d_qo d)) /\ escaped (hd 0%N (d_qc d)) (hd 0%N (d_qc d)) }.

(** [p] begins somewhere in [t]. *)
Definition occurs (p t : text) : Prop := exists i, prefix p (skipn i t).

(** The opening quotation mark begins a token of its own. *)
Record lead_ok (d : dict) : Prop := {
  lo_byte : ~ In (hd 0%N (d_qo d)) [32; 9; 13; 10; 35; 40; 41; 123; 125; d_prefix d]%N;
  lo_eol : apart (d_qo d) (d_eol d); lo_chain : apart (d_qo d) (d_chain d);
  lo_assign : apart (d_qo d) (d_assign d) /\ apart (d_qo d) [58; 61]%N;
  lo_return : apart (d_qo d) (d_return d) }.
Definition is_mark (d : dict) (m : text) : Prop := m = d_qo d \/ m = d_qc d.
(** The text ends in the middle of a quotation mark. *)
Definition broken_end (d : dict) (t : text) : Prop :=
  exists m p q, is_mark d m /\ m = p ++ q /\ p <> [] /\ q <> [] /\ suffix p t.

(** The words of a language that the lexer needs not to be empty. *)
Record words_ok (d : dict) : Prop := {
  wo_eol : d_eol d <> []; wo_chain : d_chain d <> []; wo_assign : d_assign d <> [];
  wo_return : d_return d <> []; wo_qo : d_qo d <> []; wo_len : 2 <= length (d_assign d) }.
(** A byte that ends every reference and number, and a token that ends within [n] bytes. *)
Definition stop (d : dict) (c : N) : Prop :=
  In c [32; 10; 9; 13; 40; 41]%N /\ ~ In c (d_tho d) /\ ~ In c (d_dec d).
Definition ends_within (d : dict) (n : nat) (code : text) : Prop :=
  length code <= n \/ exists w c r, code = w ++ c :: r /\ length w <= n /\ stop d c.
