(** Packages of files (plugins/media/media.c): [Package add:] and the loading of an asset.

    A file is the list of its bytes.  Positions in files are [uint64_t]s in the code and [N] here. *)
From Verif Require Import Common Fuel SipModel.
Local Open Scope N_scope.

Definition T64 : N := 18446744073709551616.
Definition T63 : N := 9223372036854775808.
Definition T31 : N := 2147483648.
Definition size (t : text) : N := N.of_nat (length t).

(** A [uint64_t] in memory (little endian). *)
Fixpoint bytes_of (k : nat) (n : N) : text := match k with O => [] | S k' => n mod 256 :: bytes_of k' (n / 256) end.
Definition bytes64 (n : N) : text := bytes_of 8 n.
Fixpoint word_of (b : text) : N := match b with [] => 0 | c :: r => c + 256 * word_of r end.

(** The state of a stream: what is in the file, and the position.  [fwrite] overwrites or appends (the position is
    never beyond the end here); writes succeed. *)
Definition fwrite (f : text) (p : nat) (s : text) : text * nat :=
  (firstn p f ++ s ++ skipn (p + length s) f, (p + length s)%nat).
(** media.c 4152-4155, the loop that copies the file in pieces of [chunk] bytes; [feof] becomes true with the
    first piece that is shorter *)
Fixpoint copy_loop (fuel chunk : nat) (src out : text) (p : nat) : res (text * nat) :=
  match fuel with
  | O => NoFuel
  | S k =>
      let piece := firstn chunk src in
      let '(out', p') := fwrite out p piece in
      if (length piece <? chunk)%nat then Ret (out', p') else copy_loop k chunk (skipn chunk src) out' p'
  end.

Definition disk := text -> option text.
Definition save (d : disk) (path content : text) : disk :=
  fun q => if list_eq_dec N.eq_dec q path then Some content else d q.

Inductive answer := AMyself | ANil.
(** media.c 4121-4125, opening the package: "wb+" makes an empty file if there is none *)
Definition opened (d : disk) (pkg : text) : disk := match d pkg with None => save d pkg [] | Some _ => d end.
(** media.c 4117-4168, [ctr_package_add].  [opens] tells whether the package can be opened for writing; a file that is
    the package itself, which would be copied to its own end for ever, is left out (UB).  The argument is the path
    of a [File], or [None] if it is something else. *)
Definition package_add (chunk : nat) (opens : text -> bool) (d : disk) (pkg : text) (arg : option text) (fuel : nat)
  : res (disk * answer * bool (* an error was raised *)) :=
  let d1 := opened d pkg in
  if negb (opens pkg) then Bad else                                       (* fseek(NULL, ...) *)
  let out := match d1 pkg with Some t => t | None => [] end in
  match arg with
  | None => Ret (d1, AMyself, true)
  | Some p =>
      let path := filter (fun c => negb (c =? 0)) p in
      if list_eq_dec N.eq_dec path pkg then Bad else
      match d1 path with
      | None => Ret (d1, ANil, true)
      | Some content =>
          let '(o1, p1) := fwrite out (length out) path in
          let '(o2, p2) := fwrite o1 p1 [0] in
          let '(o3, p3) := fwrite o2 p2 (repeat 0 8) in
          let! (o4, p4) := copy_loop fuel chunk content o3 p3 in
          let '(o5, _) := fwrite o4 p2 (bytes64 (N.of_nat p4)) in
          Ret (save d1 pkg o5, AMyself, false)
      end
  end.

(** [SDL_RWread]: the bytes that are there, at most [n] of them *)
Definition rw_read (f : text) (pos : N) (n : nat) : text := firstn n (skipn (N.to_nat pos) f).
(** [strncmp (a, b, n) == 0]; [b] is the buffer *)
Fixpoint same_upto (a : text) (b : text) (n : nat) {struct n} : outcome bool :=
  match n with
  | O => Ok true
  | S k =>
      match a, b with
      | _, [] => UB
      | [], c :: _ => Ok (c =? 0)
      | x :: a', y :: b' => if x =? y then same_upto a' b' k else Ok false
      end
  end.
Fixpoint strchr0 (b : text) (i : nat) : option nat :=
  match b with [] => None | c :: r => if c =? 0 then Some i else strchr0 r (S i) end.
(** media.c 2124-2145, the search.  [buf]: what the 500 bytes of the buffer hold.  [mem]: the largest block that
    [malloc] can give.  The asset that was found is answered as the bytes in memory; [None]: [NULL]. *)
Fixpoint load_loop (fuel : nat) (mem : N) (f : text) (pos : N) (buf name : text) : res (option text) :=
  match fuel with
  | O => NoFuel
  | S k =>
      let got := rw_read f pos 500 in
      let buf := got ++ skipn (length got) buf in
      match same_upto name buf (length got) with
      | UB => Bad
      | Ok true =>
          let at1 := pos + size name + 1 in
          let w := rw_read f at1 8 in
          let next_entry := word_of w in
          let curpos := at1 + size w in
          let read_size := (next_entry + (T64 - curpos mod T64)) mod T64 in
          if mem <? read_size then
            match rw_read f curpos 1 with [] => Ret None | _ => Bad end       (* SDL_RWread into NULL *)
          else if T31 <=? read_size then Bad                                   (* the size becomes an int *)
          else let data := rw_read f curpos (N.to_nat read_size) in
               if (size data <? read_size) then Bad                           (* bytes that were never written *)
               else if read_size =? 0 then Ret None                           (* SDL_RWFromMem refuses 0 bytes *)
               else Ret (Some data)
      | Ok false =>
          match strchr0 buf 0 with
          | None => Bad
          | Some i =>
              match slice buf (i + 1) 8 with
              | UB => Bad
              | Ok w => let jmp := word_of w in
                        if jmp =? 0 then Ret None
                        else load_loop k mem f (if T63 <=? jmp then pos + size got else jmp) buf name
              end
          end
      end
  end.
(** media.c 2102-2149, [ctr_internal_media_load_asset], with a package whose file can be read; [junk]: the fresh buffer *)
Definition load_asset (fuel : nat) (mem : N) (f junk asset : text) : res (option text) :=
  load_loop fuel mem f 0 junk (filter (fun c => negb (c =? 0)) asset).

Fixpoint add_all (chunk : nat) (opens : text -> bool) (d : disk) (pkg : text) (paths : list text) (fuel : nat) : res disk :=
  match paths with
  | [] => Ret d
  | p :: r => let! (d', _, _) := package_add chunk opens d pkg (Some p) fuel in add_all chunk opens d' pkg r fuel
  end.
