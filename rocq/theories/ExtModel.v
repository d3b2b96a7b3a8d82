(** Commands of the Media plug-in, replies from the network (plugins/media/media.c), the command line (citrine.c) and the path of a
    plug-in (util.c). *)
From Verif Require Import Common Txt NumModel ErrModel.
From Coq Require Import String.
Local Open Scope N_scope.

(** memory.c 264-281, [ctr_heap_allocate_cstring]: NUL bytes are left out *)
Definition cstring (t : text) : text := filter (fun c => negb (c =? 0)) t.

(** ** Commands *)
Section System.
(** what [system] answers for a line, after other lines *)
Variable status : list text -> text -> Z.
(** media.c 4186-4197, [ctr_internal_media_external_command]; the state: the lines given to the shell so far *)
Definition external_command (ran : list text) (command : option text) (fallback parameter : text) (template : option text) : outcome (list text * bool) :=
  let c := match command with Some c => c | None => fallback end in
  let t := match template with Some t => t | None => lit "%s '%s'" end in
  if (500 <=? List.length t + List.length c + List.length parameter)%nat then Ok (ran, false)
  else do line <- printf t [Str c; Str parameter];
       if (List.length line <? 500)%nat then Ok ((ran ++ [line])%list, (status ran line =? 0)%Z) else UB.
(** media.c 4208-4252, [ctr_media_system], not on Windows; [terminal]: TERMINAL in the environment *)
Definition media_system (terminal : option text) (command : text) : outcome (list text * bool) :=
  do r <- external_command [] terminal (lit "/usr/bin/x-terminal-emulator -e") (cstring command) None;
  let '(ran, ok) := r in
  if ok then Ok (ran, true) else external_command ran None [] (cstring command) (Some (lit "%s %s")).
End System.

(** ** Replies *)
(** The block [CtrMediaCurlBuffer] with all its bytes, CtrMediaCurlBufferSize, CtrMediaCurlBytesRead *)
Record reply := mkR { cells : list N; size : nat; got : nat }.
(** memory.c 353-364, [ctr_pool_bucket] without pools, and the width in front of the block (memory.c 48-54, 203-205) *)
Definition block_size (n : nat) : nat := let s := (n + 8)%nat in if (s =? 32)%nat || (s =? 64)%nat || (s =? 128)%nat then (s + 1)%nat else s.
(** media.c 2268-2270 *)
Definition empty : reply := mkR (repeat 0 (block_size 10 - 8)) 10 0.
(** memory.c 196-239, [ctr_heap_reallocate] *)
Definition reallocate (cells : list N) (n : nat) : list N :=
  if (block_size n <=? List.length cells + 8)%nat then cells else (cells ++ repeat 0 (block_size n - 8 - List.length cells))%list.
(** media.c 2251-2261, [ctr_curl_write_callback] *)
Definition write_callback (r : reply) (data : text) : outcome reply :=
  let len := List.length data in
  let required_size := (len + got r)%nat in
  let '(c, s) := if (size r <? required_size)%nat then (reallocate (cells r) required_size, required_size) else (cells r, size r) in
  if (got r + len <=? List.length c)%nat then Ok (mkR (firstn (got r) c ++ data ++ skipn (got r + len) c) s required_size) else UB.
Fixpoint write_all (r : reply) (l : list text) : outcome reply :=
  match l with [] => Ok r | d :: l' => do r' <- write_callback r d; write_all r' l' end.
(** base.c 1635-1637, [ctr_build_string_from_cstring]: up to the first NUL of the block *)
Fixpoint from_cstring (c : list N) : outcome text :=
  match c with [] => UB | 0 :: _ => Ok [] | x :: r => do t <- from_cstring r; Ok (x :: t) end.
(** media.c 2263-2302, [ctr_network_basic_text_send]: the library delivers [l] and no error *)
Definition text_received (l : list text) : outcome text := do r <- write_all empty l; from_cstring (cells r).

(** ** The command line *)
Inductive settings := Exit (code : Z) | Start (mode : Z) (sandbox : bool) (input dict h1 h2 : option text).
(** [strncpy] of 254 bytes into 255 bytes of zeros; [None] is a null pointer *)
Definition copied (argv : list text) (i : nat) : outcome text := match nth_error argv i with Some t => Ok (firstn 254 t) | None => UB end.
Definition begins (t : text) (a b : N) : bool := match t with x :: y :: _ => (x =? a) && (y =? b) | _ => false end.
(** citrine.c 49-91, [ctr_cli_read_args]; [ctr_print_error] ends the process (util.c 166-172) *)
Definition cli_read_args (argv : list text) : outcome settings :=
  let argc := List.length argv in
  if (argc =? 1)%nat then Ok (Exit 0)
  else match nth_error argv 1 with
  | None => UB
  | Some o =>
      if begins o 45 120 then do f <- copied argv 2; Ok (Start 3 false (Some f) None None None)
      else
        if begins o 45 103 && (argc <? 4)%nat then Ok (Exit 1)
        else
          do g <- (if begins o 45 103 then do a <- copied argv 2; do b <- copied argv 3; Ok (2%Z, Some a, Some b) else Ok (0%Z, None, None));
          let '(mode, h1, h2) := g in
          if begins o 45 116 then
            if (argc <? 4)%nat then Ok (Exit 1)
            else do d <- copied argv 2; do f <- copied argv 3; Ok (Start 1 false (Some f) (Some d) h1 h2)
          else if begins o 45 115 then do f <- copied argv 2; Ok (Start mode true (Some f) None h1 h2)
          else do f <- copied argv 1; Ok (Start mode false (Some f) None h1 h2)
  end.
(** citrine.c 153-159, the memory limit: a product of [int]s made a uint64_t; [None]: not in the environment.  [mb], [gc] and [share]: the
    numbers [atoi] reads.  The answer: the limit and the size of the pools, if there are some. *)
Definition memory_settings (mb gc share : option Z) : outcome (Z * option Z) :=
  do limit <- match mb with None => Ok 10000000%Z | Some m => if in_int (m * 1000000) then Ok ((m * 1000000) mod 2 ^ 64)%Z else UB end;
  let mode := match gc with None => 1%Z | Some m => m end in
  let ratio := match share with None => 2%Z | Some s => ((s + 128) mod 256 - 128)%Z end in
  if Z.testbit mode 3 then if (ratio =? 0)%Z then UB else Ok (limit, Some (limit / (ratio mod 2 ^ 64))%Z)
  else Ok (limit, None).

(** ** Plug-ins *)
(** [tolower] in the C locale; a negative char is outside its domain by the C standard (the GNU library takes it) *)
Definition to_lower (c : N) : outcome N := if c <? 128 then Ok (if (65 <=? c) && (c <=? 90) then c + 32 else c) else UB.
Fixpoint lowered (t : text) : outcome text := match t with [] => Ok [] | c :: r => do d <- to_lower c; do u <- lowered r; Ok (d :: u) end.
(** util.c 87-99, the path of [ctr_internal_plugin_find] *)
Definition plugin_path (name : text) : outcome text :=
  do n <- lowered (cstring name); snprintf 1024 (lit "mods/%s/libctr%s.so") [Str n; Str n].
