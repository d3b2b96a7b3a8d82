(** Reading program files and telling the kinds of picture files in the Media plug-in (plugins/media/media.c 4283-4316, 1239-1251, 1371-1376).

    A file is the list of its bytes.  The [i]-th read answers as many bytes as [short i] allows: files of SDL may answer fewer than asked for,
    and 0 at the end or after an error.  Memory of more than 128 bytes is zeroed (memory.c 370-390: calloc, never from a pool).
    Left out: what the program does when it runs, the path as the name of the program, and the reader that is not closed (1242-1250). *)
From Verif Require Import Common Fuel.
Local Open Scope nat_scope.

(** memory.c 196-239, [ctr_heap_reallocate] for blocks of more than 128 bytes *)
Definition grow (b : text) (n : nat) : text := b ++ repeat 0%N (n - length b).
(** [SDL_RWread (reader, b + off, 1, chunk)]: the block and the rest of the file *)
Definition rw_read (b : text) (off chunk allowed : nat) (rest : text) : outcome (text * text * nat) :=
  let n := Nat.min (Nat.min chunk allowed) (length rest) in
  if off + chunk <=? length b then Ok (firstn off b ++ firstn n rest ++ skipn (off + n) b, skipn n rest, n) else UB.
(** media.c 4294, [chunk] *)
Definition chunk : nat := 512.
(** media.c 4303-4307, the loop; [got]: [bytes_read] *)
Fixpoint read_loop (short : nat -> nat) (fuel i : nat) (b : text) (off got : nat) (rest : text) : res (text * nat) :=
  match got with
  | 0 => Ret (b, off)
  | S _ =>
    match fuel with
    | 0 => NoFuel
    | S k =>
        let b1 := grow b (off + chunk + 1) in
        match rw_read b1 off chunk (short i) rest with
        | Ok (b2, rest', n) => read_loop short k (S i) b2 (off + n) n rest'
        | UB => Bad
        end
    end
  end.
(** media.c 4299-4310: the block and the length of the program *)
Definition read_program (short : nat -> nat) (fuel : nat) (file : text) : res (text * nat) :=
  match rw_read (repeat 0%N chunk) 0 chunk (short 0) file with
  | Ok (b, rest, n) =>
      let! (b, off) := read_loop short fuel 1 b n n rest in
      if off + 1 <? length b then Ret (firstn (off + 1) b ++ 0%N :: skipn (off + 2) b, off) else Bad
  | UB => Bad
  end.
(** What the parser is given: the bytes of the program and the byte behind them (which the lexer may look at) *)
Inductive included := NoFile | Runs (program : text) (behind : N).
(** media.c 4283-4316, [ctr_media_include] *)
Definition media_include (short : nat -> nat) (fuel : nat) (file : option text) : res included :=
  match file with
  | None => Ret NoFile
  | Some f =>
      let! (b, n) := read_program short fuel f in
      match rd b n with Ok c => Ret (Runs (firstn n b) c) | UB => Bad end
  end.

(** [strcmp (b, s) == 0] *)
Fixpoint strcmp0 (b s : text) : outcome bool :=
  match b, s with
  | [], _ => UB
  | c :: _, [] => Ok (c =? 0)%N
  | c :: b', d :: s' => if (c =? d)%N then (if (c =? 0)%N then Ok true else strcmp0 b' s') else Ok false
  end.
(** media.c 1239-1251, [ctr_internal_media_determine_filetype]; [None]: there is no such file *)
Definition determine_filetype (file : option text) : outcome nat :=
  match file with
  | None => Ok 0
  | Some f =>
      let magic := firstn 20 f ++ repeat 0%N (20 - length f) in
      do j <- strcmp0 magic [255; 216]%N;
      if j then Ok 20
      else do p <- strcmp0 magic [137; 80; 78; 71; 13; 10; 26; 10]%N; Ok (if p then 30 else 0)
  end.
(** media.c 1371-1376: whether [screen:] goes on with this file *)
Definition canvas_accepted (file : option text) : outcome bool := do t <- determine_filetype file; Ok (negb (t =? 0)).
