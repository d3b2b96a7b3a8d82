(** Texts of errors (util.c 148-157, parser.c 22-39, lexer.c 145-200).

    [snprintf] by the C standard, for the conversions that occur in the messages; every other conversion and a missing or wrong argument
    is undefined here (with flags and widths some are defined, no message has them). *)
From Verif Require Import Common Txt NumModel ErrDicts.
From Coq Require Import String.
Local Open Scope N_scope.

Inductive arg := Str (t : text) | Int (z : Z).
Definition written_int (z : Z) : text := if (z <? 0)%Z then 45 :: dec (Z.to_N (- z)) else dec (Z.to_N z).
Fixpoint printf (f : text) (args : list arg) : outcome text :=
  match f with
  | [] => Ok []
  | 37 :: g =>
      match g with
      | 37 :: r => do t <- printf r args; Ok (37 :: t)
      | 115 :: r => match args with Str u :: a => do t <- printf r a; Ok (u ++ t)%list | _ => UB end
      | 100 :: r => match args with Int z :: a => do t <- printf r a; Ok (written_int z ++ t)%list | _ => UB end
      | _ => UB
      end
  | c :: r => do t <- printf r args; Ok (c :: t)
  end.
Definition snprintf (n : nat) (f : text) (args : list arg) : outcome text := do t <- printf f args; Ok (firstn (n - 1) t).

(** util.c 148-157, [ctr_error]; [reason]: what strerror answers *)
Definition error (message reason : text) : outcome text := snprintf 500 message [Str reason].

Inductive token := TRet | TAssign | TBlockClose | TBlockOpen | TNo | TYes | TChain | TColon | TDot | TFin | TNil | TNumber | TParClose | TParOpen
  | TQuote | TRef | TOther.
(** lexer.c 145-200, [ctr_clex_tok_describe]; the texts are in lexer.c 21-38 *)
Definition describe (t : token) : text :=
  lit match t with
  | TRet => "↲" | TAssign => "≔" | TBlockClose => "}" | TBlockOpen => "{" | TNo => "False" | TYes => "True" | TChain => "," | TColon => ":"
  | TDot => "." | TFin => "end of program" | TNil => "Nil" | TNumber => "number" | TParClose => ")" | TParOpen => "(" | TQuote => "'"
  | TRef => "reference" | TOther => "(unknown token)"
  end.
(** parser.c 22-39, [ctr_cparse_emit_error_unexpected]; [path]: [ctr_cparse_current_program], [line]: [ctr_clex_line_number] *)
Definition parse_error (syntax : text) (t : token) (hint : option text) (path : text) (line : Z) (reason : text) : outcome text :=
  if in_int (line + 1) then
    do error_message <- snprintf 250 syntax [Str (describe t); Str path; Int (line + 1)];
    do hint_message <- snprintf 250 [37; 115] [Str (match hint with Some h => h | None => [] end)];
    do flow_message <- snprintf 500 [37; 115; 37; 115] [Str error_message; Str hint_message];
    error flow_message reason
  else UB.
