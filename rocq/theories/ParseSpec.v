(** The grammar of programs and their written form, independent of lexer and parser. *)
From Verif Require Import Common TextSpec LexModel LexSpec ParseModel.
Open Scope nat_scope.

(** ** Grammar *)
Definition tk : Type := token * text.
Definition sign (t : token) : tk := (t, []).
Definition ref (v : text) : tk := (TREF, v).

(** A name of one character is the name of a binary message; other names are not. *)
Definition single (v : text) : Prop := is_char v.
Definition several (v : text) : Prop :=
  exists cs, chars_of v cs /\ length cs <> 1 /\ (Z.of_nat (length v) < W64)%Z.

Definition sent (r : node) (ms : list msg) : node := match ms with [] => r | _ => NExpr r ms end.
Fixpoint param_tokens (ps : list text) : list tk :=
  match ps with [] => [] | p :: ps => sign TCOLON :: ref p :: param_tokens ps end.

Section Grammar.
Variable d : dict.
(** The words that introduce an own property or a new variable. *)
Definition is_my (v : text) : Prop := v = d_my d.
Definition is_var (v : text) : Prop := v = d_var d \/ v = [62; 62]%N.

(** [prim n ts]: the tokens [ts] stand for the receiver [n];
    [operand]: the argument of a binary message, a receiver followed by unary messages;
    [argument]: the argument of a keyword message, which may have binary messages too;
    [expression]: anything, with keyword messages, cascades and assignment. *)
Inductive prim : node -> list tk -> Prop :=
| g_num v : prim (NNum v) [(TNUMBER, v)]
| g_str v : prim (NStr v) [(TQUOTE, v)]
| g_ref v : ~ is_my v -> ~ is_var v -> prim (NRef 0 v) [ref v]
| g_my w v : is_my w -> ~ is_var v -> prim (NRef 1 v) [ref w; ref v]
| g_var w v : is_var w -> ~ is_my w -> prim (NRef 2 v) [ref w; ref v]
| g_nested e ts : expression e ts -> prim (NNested e) (sign TPAROPEN :: ts ++ [sign TPARCLOSE])
| g_block ps body ts : ps <> [] \/ body <> [] -> statements body ts ->
    prim (NBlock ps body) (sign TBLOCKOPEN :: param_tokens ps ++ ts ++ [sign TBLOCKCLOSE])
with operand : node -> list tk -> Prop :=
| g_operand r ts us : prim r ts -> Forall several us ->
    operand (sent r (map MUna us)) (ts ++ map ref us)
with binaries : list msg -> list tk -> Prop :=
| g_bnil : binaries [] []
| g_bcons v a ta ms ts : single v -> operand a ta -> binaries ms ts ->
    binaries (MBin v a :: ms) (ref v :: ta ++ ts)
with argument : node -> list tk -> Prop :=
| g_argument r tr us ms ts : prim r tr -> Forall several us -> binaries ms ts ->
    argument (sent r (map MUna us ++ ms)) (tr ++ map ref us ++ ts)
with keywords : text -> list node -> list tk -> Prop :=
| g_kone a ta : argument a ta -> keywords [] [a] ta
| g_kmore a ta v name args ts : argument a ta -> keywords name args ts ->
    keywords (v ++ d_prefix d :: name) (a :: args) (ta ++ ref v :: sign TCOLON :: ts)
with messages_of : list msg -> list tk -> Prop :=
| g_plain us ms ts : Forall several us -> binaries ms ts ->
    messages_of (map MUna us ++ ms) (map ref us ++ ts)
| g_kw us ms ts v name args tk : Forall several us -> binaries ms ts -> keywords name args tk ->
    (exists cs, chars_of v cs) -> length (v ++ d_prefix d :: name) <= 255 ->
    messages_of (map MUna us ++ ms ++ [MKw (v ++ d_prefix d :: name) args])
                (map ref us ++ ts ++ ref v :: sign TCOLON :: tk)
| g_cascade us ms ts v name args tk ms' ts' : Forall several us -> binaries ms ts -> keywords name args tk ->
    (exists cs, chars_of v cs) -> length (v ++ d_prefix d :: name) <= 255 ->
    messages_of ms' ts' -> ms' <> [] ->
    messages_of (map MUna us ++ ms ++ MKw (v ++ d_prefix d :: name) args :: ms')
                (map ref us ++ ts ++ ref v :: sign TCOLON :: tk ++ sign TCHAIN :: ts')
with expression : node -> list tk -> Prop :=
| g_send r tr ms tm : prim r tr -> messages_of ms tm -> expression (sent r ms) (tr ++ tm)
| g_assign m v tv e te : prim (NRef m v) tv -> expression e te ->
    expression (NAssign (NRef m v) e) (tv ++ sign TASSIGN :: te)
with statements : list node -> list tk -> Prop :=
| g_snil : statements [] []
| g_scons e te es ts : expression e te -> statements es ts ->
    statements (e :: es) (te ++ sign TDOT :: ts)
| g_sret e te es ts : expression e te -> statements es ts ->
    statements (NRet e :: es) (sign TRET :: te ++ sign TDOT :: ts).

(** ** Written form *)
Definition white (c : N) : Prop := In c [32; 9; 13; 10]%N.
Definition digit (c : N) : Prop := (48 <= c <= 57)%N.
(** White space and comments. *)
Inductive gap : text -> Prop :=
| gap_nil : gap []
| gap_white c g : white c -> gap g -> gap (c :: g)
| gap_comment w g : ~ In 10%N w -> gap g -> gap (35%N :: w ++ 10%N :: g).
(** Where a name ends. *)
Definition ender (k : text) : Prop :=
  prefix (d_eol d) k \/ prefix (d_qo d) k \/ prefix (d_assign d) k \/
  prefix (d_chain d) k \/ exists c r, k = c :: r /\ (white c \/ c = 40%N \/ c = 41%N \/ c = d_prefix d).
Definition starts_digit (k : text) : Prop := exists c r, k = c :: r /\ digit c.
(** [spelled t src k]: before [k], the token [t] may be written as [src]. *)
Inductive spelled : tk -> text -> text -> Prop :=
| sp_paropen k : spelled (sign TPAROPEN) [40%N] k
| sp_parclose k : spelled (sign TPARCLOSE) [41%N] k
| sp_blockopen k : spelled (sign TBLOCKOPEN) [123%N] k
| sp_blockclose k : spelled (sign TBLOCKCLOSE) [125%N] k
| sp_dot k : spelled (sign TDOT) (d_eol d) k
| sp_chain k : spelled (sign TCHAIN) (d_chain d) k
| sp_assign k : spelled (sign TASSIGN) (d_assign d) k
| sp_colon k : (forall w, In w [d_assign d; [58; 61]%N] -> ~ prefix w (d_prefix d :: k)) ->
    spelled (sign TCOLON) [d_prefix d] k
| sp_return k : spelled (sign TRET) (d_return d) (32%N :: k)
| sp_text lit v k : denotes d (d_qc d ++ k) lit v -> (Z.of_nat (length lit) < W64)%Z ->
    spelled (TQUOTE, v) (d_qo d ++ lit ++ d_qc d) k
| sp_number s ip k : (s = [] \/ s = [45%N]) -> ip <> [] -> Forall digit ip -> length (s ++ ip) <= 255 ->
    ~ starts_digit k ->
    (forall w r, In w [d_tho d; d_dec d] -> k = w ++ r -> ~ starts_digit r) ->
    spelled (TNUMBER, s ++ ip) (s ++ ip) k
| sp_decimal s ip fp c k : (s = [] \/ s = [45%N]) -> ip <> [] -> Forall digit ip ->
    fp <> [] -> Forall digit fp -> length (s ++ ip ++ 46%N :: fp) <= 255 -> d_dec d = [c] ->
    ~ starts_digit k -> spelled (TNUMBER, s ++ ip ++ 46%N :: fp) (s ++ ip ++ c :: fp) k
| sp_name v k : v <> [] -> length v <= 255 -> ~ In 35%N v ->
    ~ In (hd 0%N v) [123; 125]%N -> ~ starts_digit v -> (hd 0%N v = 45%N -> ~ starts_digit (tl v ++ k)) ->
    ~ prefix (d_return d ++ [32%N]) (v ++ k) ->
    (forall p q, v = p ++ q -> q <> [] -> ~ ender (q ++ k)) -> (k = [] \/ ender k) ->
    spelled (ref v) v k.
(** A program text made of the given tokens, with gaps anywhere between them. *)
Inductive layout : list tk -> text -> Prop :=
| lay_end g w : gap g -> w = [] \/ (exists v, w = 35%N :: v /\ ~ In 10%N v) -> layout [] (g ++ w)
| lay_cons g t src ts k : gap g -> spelled t src k -> layout ts k -> layout (t :: ts) (g ++ src ++ k).
End Grammar.

(** Requirements on the words of a language: they do not begin like white space, a comment or a
    bracket, nor like the words the lexer looks for first; and names can be told from them. *)
Definition plain_first (w : text) : Prop :=
  exists c r, w = c :: r /\ ~ In c [32; 9; 13; 10; 35; 40; 41; 123; 125]%N.
Record lang_ok (d : dict) : Prop := {
  la_first : Forall plain_first [d_eol d; d_chain d; d_assign d; d_return d; d_qo d];
  la_prefix : plain_first [d_prefix d];
  la_chain : apart (d_chain d) (d_eol d);
  la_assign : apart (d_assign d) (d_eol d) /\ apart (d_assign d) (d_chain d);
  la_colon : apart [d_prefix d] (d_eol d) /\ apart [d_prefix d] (d_chain d);
  la_return : apart (d_return d) (d_eol d) /\ apart (d_return d) (d_chain d) /\
     apart (d_return d) (d_assign d) /\ apart (d_return d) [58; 61]%N /\ apart (d_return d) [d_prefix d];
  la_qo : Forall (apart (d_qo d)) [d_eol d; d_chain d; d_assign d; [58; 61]%N; [d_prefix d]; d_return d];
  la_digits : Forall (fun w => forall c r, w = c :: r -> ~ digit c /\ c <> 45%N)
     [d_eol d; d_chain d; d_assign d; d_return d; d_qo d; [d_prefix d]; d_dec d; d_tho d];
  la_coloneq : d_prefix d = 58%N \/ d_eol d = [58%N];
  la_dec : d_dec d <> [] /\ d_tho d <> [] /\ apart (d_tho d) (d_dec d) /\ (d_eol d = d_dec d \/ apart (d_eol d) (d_dec d)) }.
