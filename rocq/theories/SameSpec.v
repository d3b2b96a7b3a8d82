(** Specification: two programs, in two languages, are the same but for their words. *)
From Verif Require Import Common TextSpec NumModel LexModel ParseModel ParseSpec TransModel TransSpec.
Open Scope nat_scope.

(** ** Programs *)
(** [word], [msgs] and [txt] tell which words, messages and texts correspond. *)
Section Same.
Variables word msgs txt : text -> text -> Prop.
Inductive same : node -> node -> Prop :=
| sa_ref m v v' : word v v' -> same (NRef m v) (NRef m v')
| sa_str s s' : txt s s' -> same (NStr s) (NStr s')
| sa_num v : same (NNum v) (NNum v)
| sa_nested e e' : same e e' -> same (NNested e) (NNested e')
| sa_block ps ps' b b' : Forall2 word ps ps' -> all b b' -> same (NBlock ps b) (NBlock ps' b')
| sa_expr r r' ms ms' : same r r' -> sends ms ms' -> same (NExpr r ms) (NExpr r' ms')
| sa_assign r r' e e' : same r r' -> same e e' -> same (NAssign r e) (NAssign r' e')
| sa_ret e e' : same e e' -> same (NRet e) (NRet e')
with all : list node -> list node -> Prop :=
| al_nil : all [] []
| al_cons e e' l l' : same e e' -> all l l' -> all (e :: l) (e' :: l')
with sends : list msg -> list msg -> Prop :=
| se_nil : sends [] []
| se_una v v' l l' : word v v' -> sends l l' -> sends (MUna v :: l) (MUna v' :: l')
| se_bin v v' a a' l l' : word v v' -> same a a' -> sends l l' -> sends (MBin v a :: l) (MBin v' a' :: l')
| se_kw n n' a a' l l' : msgs n n' -> all a a' -> sends l l' -> sends (MKw n a :: l) (MKw n' a' :: l').
End Same.

(** ** What a piece of a program is read as *)
(** A number without its thousands separators, with a full stop for the decimal separator. *)
Definition value (d : dict) (n : text) : text :=
  flat_map (fun c => if starts (d_dec d) [c] then [46%N] else if starts (d_tho d) [c] then [] else [c]) n.
Definition piece_tokens (d : dict) (p : piece) : list tk :=
  match p with
  | Word w _ => [(TREF, w)]
  | Key k _ => [(TREF, k); (TCOLON, [])]
  | Param w _ => [(TCOLON, []); (TREF, w)]
  | Text s _ => [(TQUOTE, s)]
  | Num n _ => [(TNUMBER, value d n)]
  | Open => [(TPAROPEN, [])] | Close => [(TPARCLOSE, [])] | BOpen => [(TBLOCKOPEN, [])] | BClose => [(TBLOCKCLOSE, [])]
  | Dot => [(TDOT, [])] | Chain => [(TCHAIN, [])] | Assign => [(TASSIGN, [])] | Return => [(TRET, [])]
  end.
Definition tokens (d : dict) (l : program) : list tk := flat_map (fun '(_, p) => piece_tokens d p) l.

(** ** Words that play the same part in both languages *)
(** Every message without arguments or with a sign for its name is among [M]. *)
Section Uses.
Variable M : text -> Prop.
Fixpoint uses (n : node) : Prop :=
  match n with
  | NRef _ _ | NStr _ | NNum _ => True
  | NNested e | NRet e => uses e
  | NBlock _ b => fold_right (fun x P => uses x /\ P) True b
  | NExpr r ms => uses r /\ fold_right (fun x P => uses_msg x /\ P) True ms
  | NAssign r e => uses r /\ uses e
  end
with uses_msg (m : msg) : Prop :=
  match m with
  | MUna v => M v
  | MBin v a => M v /\ uses a
  | MKw _ args => fold_right (fun x P => uses x /\ P) True args
  | MNone => True
  end.
Definition uses_all (l : list node) : Prop := fold_right (fun x P => uses x /\ P) True l.
Definition uses_msgs (l : list msg) : Prop := fold_right (fun x P => uses_msg x /\ P) True l.
End Uses.
(** The names of these messages have one character in both languages or in none. *)
Definition keeps (M : text -> Prop) (d d' : dict) (w w' : text) : Prop :=
  (M w -> (single w -> single w') /\ (several w -> several w')) /\ (is_my d w <-> is_my d' w') /\ (is_var d w <-> is_var d' w').
Definition valid (w : text) : Prop := exists cs, chars_of w cs.
(** No sign for a new line or a tab in the text. *)
Definition quiet (d : dict) (s : text) : bool :=
  forallb (fun i => distinct (skipn i s ++ d_qc d) newline_sign && distinct (skipn i s ++ d_qc d) tab_sign) (seq 0 (length s)).
Definition steady (M : text -> Prop) (d d' : dict) (p : piece) : Prop :=
  match p with
  | Word w w' | Param w w' => keeps M d d' w w'
  | Key k k' => valid k -> valid k'
  | Text s s' => quiet d s = true /\ quiet d' s' = true
  | _ => True
  end.
(** Parameters stand at the head of a block ([head]); no part of a message follows another one ([key]) at once. *)
Fixpoint placed (head key : bool) (l : program) : bool :=
  match l with
  | [] => true
  | (_, p) :: l' =>
      match p with
      | Param _ _ => head && placed true false l'
      | BOpen => placed true false l'
      | Key _ _ => negb key && placed false true l'
      | _ => placed false false l'
      end
  end.
(** The text in the other language: as in the dictionary, or as it is. *)
Definition text_of (T : tdict) (s s' : text) : Prop := known T ty_s s s' = true \/ s' = s.
Definition word_of (T : tdict) (w w' : text) : Prop := known T ty_t w w' = true.
