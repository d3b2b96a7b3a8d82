(** Model of the Program object (system.c): memory settings, arguments of the command line,
    settings of the environment, and what is read from the console and from commands; and of
    the memory settings at the start (citrine.c).

    Arguments are taken after [ctr_internal_cast2number] and [ctr_internal_cast2string];
    allocation succeeds. *)
From Verif Require Import Common NumModel JsonModel FileModel.
Local Open Scope Z_scope.

(** * Memory *)
Definition W64 : Z := 2 ^ 64.
(** [(uint64_t) x]; undefined when the truncated value is out of range *)
Definition c_uint64 (x : num) : outcome Z :=
  match trunc x with Some z => if (0 <=? z) && (z <? W64) then Ok z else UB | None => UB end.

(** system.c 235-252, [ctr_gc_setmemlimit]: the new limit.  [unit] is the private property
    "qualifier" of the argument, a text (base.c 1355-1358, [ctr_number_qualify]). *)
Definition setmemlimit (x : num) (unit : option text) : outcome Z :=
  do n <- c_uint64 x;
  Ok match unit with
     | Some u =>
         if Nat.eqb (length u) 2 then
           if text_eqb u [75; 66]%N then (n * 1000) mod W64
           else if text_eqb u [77; 66]%N then (n * 1000000) mod W64
           else n
         else n
     | None => n
     end.

(** C library [atoi]; undefined when the value does not fit *)
Definition atoi (t : text) : outcome Z :=
  let '(s, r) := take_sign (skip_space t) in
  let z := cond_Zopp s (Z.of_N (digits_val (fst (span_digits r)) 0)) in
  if in_int z then Ok z else UB.
Definition c_char (z : Z) : Z := (z + 128) mod 256 - 128.

(** citrine.c 130-185, [main]: the limit, the mode and the size of the pool, if one is made *)
Definition startup (limit_mb mode share : option text) : outcome (Z * Z * option Z) :=
  do limit <- match limit_mb with
              | None => Ok 10000000
              | Some t => do n <- atoi t; if in_int (n * 1000000) then Ok ((n * 1000000) mod W64) else UB
              end;
  do m <- match mode with None => Ok 1 | Some t => atoi t end;
  do s <- match share with None => Ok 2 | Some t => do n <- atoi t; Ok (c_char n) end;
  if Z.land m 8 =? 0 then Ok (limit, m, None)
  else if s =? 0 then UB else Ok (limit, m, Some (limit / (s mod W64))).

(** * Arguments *)
(** system.c 327-332, [ctr_program_argument]; [None] is Nil.  [argv] holds [ctr_argc] texts. *)
Definition program_argument (argv : list text) (x : num) : outcome (option text) :=
  do n <- c_int x;
  if (Z.of_nat (length argv) <? n) || (n <? 1) then Ok None
  else match nth_error argv (Z.to_nat (n - 1)) with Some t => Ok (Some t) | None => UB end.
(** system.c 477-479, [ctr_program_num_of_args] *)
Definition program_num_of_args (argv : list text) : num := of_Z (Z.of_nat (length argv)).

Local Open Scope nat_scope.
(** * Environment *)
(** The environment is a list of entries "name=value". *)
Definition entry_of (name e : text) : option text :=
  if text_eqb (firstn (length name) e) name
  then match skipn (length name) e with c :: v => if (c =? 61)%N then Some v else None | [] => None end
  else None.
(** C library [getenv], [setenv] with overwriting, [unsetenv].  Names that are empty or hold
    an equals sign are refused by the last two (with a result that is not looked at). *)
Fixpoint getenv (env : list text) (name : text) : option text :=
  match env with
  | [] => None
  | e :: env' => match entry_of name e with Some v => Some v | None => getenv env' name end
  end.
Definition bad_name (name : text) : bool := match name with [] => true | _ => existsb (N.eqb 61) name end.
Fixpoint replace_env (env : list text) (name value : text) : list text :=
  match env with
  | [] => [name ++ 61%N :: value]
  | e :: env' => match entry_of name e with
                 | Some _ => (name ++ 61%N :: value) :: env'
                 | None => e :: replace_env env' name value
                 end
  end.
Definition setenv (env : list text) (name value : text) : list text :=
  if bad_name name then env else replace_env env name value.
Definition unsetenv (env : list text) (name : text) : list text :=
  if bad_name name then env
  else filter (fun e => match entry_of name e with Some _ => false | None => true end) env.
(** system.c 506-520, [ctr_program_get_env]: [strncpy] stops at the first NUL byte.  The
    empty name is not found. *)
Definition program_get_env (env : list text) (name : text) : option text :=
  match until_nul name with [] => None | n => getenv env n end.
(** system.c 533-551, [ctr_program_set_env]; [None] is Nil *)
Definition program_set_env (env : list text) (name : text) (value : option text) : list text :=
  match value with
  | None => unsetenv env (cstring name)
  | Some v => setenv env (cstring name) (cstring v)
  end.

(** * Reading *)
(** system.c 565-587, [ctr_program_waitforinput], and system.c 603-631,
    [ctr_program_waitforpassword], for [fuel] rounds of the loop.  [inp i] is the i-th result
    of [getchar], -1 at the end; [page] the size of the block holding [buf].
    [None]: still waiting. *)
Fixpoint ask_loop (fuel : nat) (inp : nat -> Z) (i page : nat) (buf : text) : outcome (option text) :=
  match fuel with
  | O => Ok None
  | S f =>
      if (inp i =? 10)%Z then Ok (Some buf)
      else if page <=? length buf then UB
      else
        let buf' := buf ++ [Z.to_N (inp i mod 256)] in
        ask_loop f inp (S i) (if page <=? length buf' then page * 2 else page) buf'
  end.
Definition program_ask (fuel : nat) (inp : nat -> Z) : outcome (option text) := ask_loop fuel inp 0 10 [].

(** system.c 647-669, [ctr_program_input], without read errors: [fread] delivers 64 bytes
    while there are as many. *)
Fixpoint input_loop (fuel : nat) (inp content : text) : option text :=
  match fuel with
  | O => None
  | S f =>
      let got := firstn 64 inp in
      if negb (length got =? 64) then Some (content ++ got)
      else input_loop f (skipn 64 inp) (content ++ got)
  end.
Definition program_input (inp : text) : option text :=
  match input_loop (S (length inp)) inp [] with
  | None => None
  | Some c => Some (if (0 <? length c) && (nth (length c - 1) c 0 =? 10)%N then firstn (length c - 1) c else c)
  end.

(** C library [fgets] with room for [n] bytes and a NUL: the bytes read and the rest *)
Fixpoint fgets (n : nat) (inp : text) : text * text :=
  match n, inp with
  | S n', c :: r => if (c =? 10)%N then ([c], r) else let (a, b) := fgets n' r in (c :: a, b)
  | _, _ => ([], inp)
  end.
(** system.c 290-317, [ctr_program_shell], given what the command writes; [None]: [popen]
    failed, and the null pointer is passed to [fgets]. *)
Fixpoint shell_loop (fuel : nat) (out acc : text) : option text :=
  match fuel with
  | O => None
  | S f => match fgets 511 out with
           | ([], _) => Some acc
           | (l, r) => shell_loop f r (acc ++ until_nul l)
           end
  end.
Definition program_shell (popen : text -> option text) (cmd : text) : outcome (option text) :=
  match popen (until_nul cmd) with
  | None => UB
  | Some out => Ok (shell_loop (S (length out)) out [])
  end.
