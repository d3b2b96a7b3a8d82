(** The parser (parser.c) on top of the lexer.

    The state holds the code pointer, the two remembered positions of [ctr_clex_putback]
    and whether [CtrStdFlow] has been set by an error.  A program is the list of its bytes;
    line numbers, the source map and the texts of error messages are left out.
    Memory for the tree comes from [ctr_heap_allocate_tracked] and is not modelled. *)
From Verif Require Import Common TextModel LexModel.
Open Scope nat_scope.

(** citrine.h 92-106: the nodes of the tree.  The modifier of a reference is 1 for an own
    property and 2 for a new variable; [MNone] is the message node of type -1. *)
Inductive node :=
| NRef (modifier : nat) (name : text) | NStr (v : text) | NNum (v : text)
| NNested (e : node) | NBlock (params : list text) (body : list node)
| NExpr (r : node) (ms : list msg) | NAssign (r e : node) | NRet (e : node)
with msg := MUna (name : text) | MBin (name : text) (arg : node) | MKw (name : text) (args : list node) | MNone.

Record pst := mkP { cur : text; old : text; older : text; err : bool }.
(** A result; [NULL]; the end of the process; undefined behaviour; no fuel left (which does
    not happen, [ParseProofs.parse_total]). *)
Inductive pres (A : Type) := POk (a : A) (s : pst) | PNull (s : pst) | PExit | PUB | PFuel.
Arguments POk {A} a s. Arguments PNull {A} s. Arguments PExit {A}. Arguments PUB {A}. Arguments PFuel {A}.
Definition pbind {A B} (o : pres A) (f : A -> pst -> pres B) : pres B :=
  match o with POk a s => f a s | PNull s => PNull s | PExit => PExit | PUB => PUB | PFuel => PFuel end.
Notation "'p!' x ',' s <- o ; f" := (pbind o (fun x s => f))
  (at level 200, x pattern, s name, o at level 100, f at level 200, right associativity).

Definition token_eqb (a b : token) : bool :=
  match a, b with
  | TREF, TREF | TQUOTE, TQUOTE | TNUMBER, TNUMBER | TPAROPEN, TPAROPEN | TPARCLOSE, TPARCLOSE
  | TBLOCKOPEN, TBLOCKOPEN | TBLOCKCLOSE, TBLOCKCLOSE | TCOLON, TCOLON | TDOT, TDOT
  | TCHAIN, TCHAIN | TASSIGN, TASSIGN | TRET, TRET | TFIN, TFIN => true
  | _, _ => false
  end.

Section Parser.
Variable d : dict.

(** lexer.c 235-236 and 230-352, [ctr_clex_tok] with the positions to go back to *)
Definition tokp (s : pst) : pres (token * text) :=
  match tok d (cur s) with
  | LOk (t, v, r) => POk (t, v) (mkP r (cur s) (old s) (err s))
  | LExit => PExit
  | LUB => PUB
  end.
(** lexer.c 217-222, [ctr_clex_putback] *)
Definition putback (s : pst) : pst := mkP (old s) (older s) (older s) (err s).
(** parser.c 22-39, [ctr_cparse_emit_error_unexpected] *)
Definition seterr (s : pst) : pst := mkP (cur s) (old s) (older s) true.
Definition fail {A} (s : pst) : pres A := PNull (seterr s).

(** parser.c 415-428, [ctr_cparse_number] *)
Definition parse_number (s : pst) : pres node := p! (_, v), s <- tokp s; POk (NNum v) s.
(** parser.c 394-408, [ctr_cparse_string] *)
Definition parse_string (s : pst) : pres node :=
  p! _, s <- tokp s;
  match readstr d false (cur s) with
  | LOk (v, r) => POk (NStr v) (mkP r (old s) (older s) (err s))
  | LExit => PExit
  | LUB => PUB
  end.
(** parser.c 353-387, [ctr_cparse_ref] *)
Definition parse_ref (s : pst) : pres node :=
  p! (_, v), s <- tokp s;
  p! (m, v), s <- (if text_eqb v (d_my d)
                   then p! (t, v'), s <- tokp s;
                        if token_eqb t TREF then POk (1, v') s else fail s
                   else POk (0, v) s);
  if text_eqb v [62; 62]%N || text_eqb v (d_var d)
  then p! (t, v'), s <- tokp s;
       if token_eqb t TREF then POk (NRef 2 v') s else fail s
  else POk (NRef m v) s.
(** parser.c 290-311: the parameters of a block; [t] has been read.  The answer leaves the
    state behind the first token that is not a colon. *)
Fixpoint params (fuel : nat) (t : token) (acc : list text) (s : pst) : pres (list text) :=
  match fuel with
  | O => PFuel
  | S f =>
      if token_eqb t TCOLON then
        p! (_, v), s <- tokp s;
        p! (t, _), s <- tokp s;
        params f t (acc ++ [v]) s
      else POk acc s
  end.

Definition is_kw (m : msg) : bool := match m with MKw _ _ => true | _ => false end.

(** parser.c 484-541, [ctr_cparse_expr]; the modes are 0, 1 (argument of a keyword message)
    and 2 (argument of a binary message) *)
Fixpoint expr (fuel : nat) (mode : nat) (s : pst) {struct fuel} : pres node :=
  match fuel with
  | O => PFuel
  | S f =>
      p! r, s <- receiver f s;
      p! (t2, _), s <- tokp s;
      p! (t3, _), s <- tokp s;
      let s := putback (putback s) in
      if (mode =? 1) && token_eqb t2 TREF && token_eqb t3 TCOLON then POk r s
      else
        match t2 with
        | TCOLON | TBLOCKCLOSE => fail s
        | TASSIGN =>
            match r with
            | NRef _ _ =>
                (* parser.c 462-477, [ctr_cparse_assignment] *)
                p! _, s <- tokp s;
                p! e, s <- expr f 0 s;
                POk (NAssign r e) s
            | _ => fail s
            end
        | TDOT | TPARCLOSE | TCHAIN | TFIN => POk r s
        | _ =>
            p! (t, _), s <- tokp s;
            p! ms, s <- messages f mode [] t s;
            match ms with
            | MNone :: _ => p! _, s <- tokp s; POk r (putback s)
            | _ => POk (NExpr r ms) s
            end
        end
  end
(** parser.c 435-455, [ctr_cparse_receiver] *)
with receiver (fuel : nat) (s : pst) {struct fuel} : pres node :=
  match fuel with
  | O => PFuel
  | S f =>
      p! (t, _), s <- tokp s;
      let s := putback s in
      match t with
      | TNUMBER => parse_number s
      | TQUOTE => parse_string s
      | TREF => parse_ref s
      | TBLOCKOPEN =>
          (* parser.c 254-346, [ctr_cparse_block] *)
          p! _, s <- tokp s;
          p! (t, _), s <- tokp s;
          if token_eqb t TBLOCKCLOSE then fail s
          else
            p! ps, s <- params f t [] s;
            p! body, s <- block_body f [] (putback s);
            POk (NBlock ps body) s
      | TPAROPEN =>
          (* parser.c 230-247, [ctr_cparse_popen] *)
          p! _, s <- tokp s;
          p! e, s <- expr f 0 s;
          p! (t, _), s <- tokp s;
          if token_eqb t TPARCLOSE then POk (NNested e) s else fail s
      | _ => fail s
      end
  end
(** parser.c 312-344: the statements of a block *)
with block_body (fuel : nat) (acc : list node) (s : pst) {struct fuel} : pres (list node) :=
  match fuel with
  | O => PFuel
  | S f =>
      p! (t, _), s <- tokp s;
      if token_eqb t TBLOCKCLOSE then POk acc s
      else
        let s := putback s in
        p! n, s <- (if token_eqb t TRET
                    (* parser.c 548-559, [ctr_cparse_ret] *)
                    then p! _, s <- tokp s; p! e, s <- expr f 0 s; POk (NRet e) s
                    else expr f 0 s);
        p! (t, _), s <- tokp s;
        if token_eqb t TDOT then block_body f (acc ++ [n]) s else fail s
  end
(** parser.c 177-222, [ctr_cparse_messages]: the loop; [t] has been read *)
with messages (fuel : nat) (mode : nat) (acc : list msg) (t : token) (s : pst) {struct fuel} : pres (list msg) :=
  match fuel with
  | O => PFuel
  | S f =>
      if token_eqb t TREF || (token_eqb t TCHAIN && is_kw (last acc MNone)) then
        p! _, s <- (if token_eqb t TCHAIN
                    then p! (t, _), s <- tokp s; if token_eqb t TREF then POk tt s else fail s
                    else POk tt s);
        p! m, s <- message f mode (putback s);
        match m with
        | MNone =>
            match acc with
            | [] => POk [MNone] s
            | _ => p! _, s <- tokp s; POk acc (putback s)
            end
        | _ => p! (t, _), s <- tokp s; messages f mode (acc ++ [m]) t s
        end
      else
        let s := putback s in
        match acc with [] => fail s | _ => POk acc s end
  end
(** parser.c 71-169, [ctr_cparse_message].  The name is collected in a buffer of 255 bytes. *)
with message (fuel : nat) (mode : nat) (s : pst) {struct fuel} : pres msg :=
  match fuel with
  | O => PFuel
  | S f =>
      p! (t, v), s <- tokp s;
      if (255 <? length v) then fail s
      else
        match getutf8len v (length v) with
        | UB => PUB
        | Ok u =>
            p! (la, _), s <- tokp s;
            let s := putback s in
            let isbin := (u =? 1)%Z && negb (token_eqb la TCOLON) in
            if (mode =? 2) && isbin then POk MNone (putback s)
            else if isbin then
              p! a, s <- expr f 2 s;
              POk (MBin v a) s
            else
              p! (la, _), s <- tokp s;
              let s := putback s in
              if token_eqb la TCOLON then
                if 0 <? mode then POk MNone (putback s)
                else if 255 <=? length v then PUB
                else
                  p! _, s <- tokp s;
                  kw_args f (v ++ [d_prefix d]) [] s
              else POk (MUna v) s
        end
  end
(** parser.c 124-160: the arguments of a keyword message *)
with kw_args (fuel : nat) (name : text) (acc : list node) (s : pst) {struct fuel} : pres msg :=
  match fuel with
  | O => PFuel
  | S f =>
      p! a, s <- expr f 1 s;
      p! (t, v), s <- tokp s;
      match t with
      | TDOT | TFIN | TCHAIN | TPARCLOSE => POk (MKw name (acc ++ [a])) (putback s)
      | TREF =>
          if 255 <? length name + length v then fail s
          else if 255 <=? length name + length v then PUB
          else
            p! (t, _), s <- tokp s;
            let s := if token_eqb t TCOLON then s else seterr s in
            kw_args f (name ++ v ++ [d_prefix d]) (acc ++ [a]) s
      | _ => kw_args f name (acc ++ [a]) s
      end
  end.

(** parser.c 579-599, [ctr_cparse_statement]; [None] is the end of the program *)
Definition statement (fuel : nat) (s : pst) : pres (option node) :=
  p! (t, _), s <- tokp s;
  let s := putback s in
  if token_eqb t TFIN then p! _, s <- tokp s; POk None s
  else
    p! n, s <- (if token_eqb t TRET
                then p! _, s <- tokp s; p! e, s <- expr fuel 0 s; POk (NRet e) s
                else expr fuel 0 s);
    p! (t, _), s <- tokp s;
    if token_eqb t TDOT then POk (Some n) s else fail s.
(** parser.c 607-626, [ctr_cparse_program]; the node for the end is left out *)
Fixpoint program (fuel : nat) (acc : list node) (s : pst) : pres (list node) :=
  match fuel with
  | O => PFuel
  | S f =>
      p! n, s <- statement f s;
      match n with
      | None => POk acc s
      | Some n => program f (acc ++ [n]) s
      end
  end.
(** parser.c 633-645, [ctr_cparse_parse]; [o] and [oo] are the positions left by an earlier parse *)
Definition parse (code o oo : text) : pres (list node) :=
  program (4 * length code + 5) [] (mkP code o oo false).
End Parser.
