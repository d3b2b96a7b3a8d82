(** Model of the File object (file.c).

    The file system is a state: [entry] gives the folder or the regular file behind a place
    (an entry of a folder), [bytes] the contents of the regular files.  What the operating
    system decides is left open: [place] resolves a C string to a place, the permissions
    may depend on anything, [fresh] numbers new files and [taken] is the number of bytes
    accepted by [fwrite].  Not modelled: symbolic links as last part of a path, other
    processes changing files meanwhile. *)
From Verif Require Import Common JsonModel.
Local Open Scope nat_scope.

Inductive node := Folder | Regular (i : N).
Record os := mkOs { entry : N -> option node; bytes : N -> text }.
Inductive answer := AMe | ANil | AText (t : text) | ANumber (z : Z) | ABool (b : bool).

Definition at_N {A} (f : N -> A) (k : N) (x : A) (j : N) : A := if (j =? k)%N then x else f j.

(** The C string seen by a function that stops at the first NUL byte. *)
Fixpoint until_nul (t : text) : text :=
  match t with [] => [] | c :: r => if (c =? 0)%N then [] else c :: until_nul r end.
(** [long] to [int] as compilers do it. *)
Definition to_int (z : Z) : Z := ((z + 2147483648) mod 4294967296 - 2147483648)%Z.

Section Files.
Variables (place : text -> option N) (readable writable creatable removable : os -> N -> bool)
          (fresh : os -> N) (taken : os -> N -> text -> nat).

(** [fopen] with "r" or "rb" *)
Definition open_read (s : os) (p : text) : option node :=
  match place p with
  | None => None
  | Some l => match entry s l with Some n => if readable s l then Some n else None | None => None end
  end.
(** [fopen] with "wb+" ([trunc]) or "ab+" *)
Definition open_write (trunc : bool) (s : os) (p : text) : option (os * N) :=
  match place p with
  | None => None
  | Some l =>
      match entry s l with
      | Some Folder => None
      | Some (Regular i) =>
          if readable s l && writable s l
          then Some (if trunc then mkOs (entry s) (at_N (bytes s) i []) else s, i) else None
      | None =>
          if creatable s l
          then Some (mkOs (at_N (entry s) l (Some (Regular (fresh s)))) (at_N (bytes s) (fresh s) []), fresh s)
          else None
      end
  end.
(** [fwrite] at the end of the file, result not looked at, and [fclose] *)
Definition fwrite (s : os) (i : N) (t : text) : os :=
  mkOs (entry s) (at_N (bytes s) i (bytes s i ++ firstn (taken s i t) t)).

(** A File object holds its path, if any (file.c 13-22; the path is set once).
    Results: the state, the answer, and whether an error was raised
    ([ctr_error] sets [CtrStdFlow], util.c 148-157). *)

(** file.c 66-102, [ctr_file_read].  The size of a folder is not defined. *)
Definition file_read (s : os) (path : option text) : outcome (os * answer * bool) :=
  match path with
  | None => Ok (s, ANil, false)
  | Some p =>
      match open_read s (cstring p) with
      | None => Ok (s, ANil, true)
      | Some Folder => UB
      | Some (Regular i) => Ok (s, AText (bytes s i), false)
      end
  end.
(** file.c 114-136, [ctr_file_write].  The path is copied with its NUL bytes. *)
Definition file_write (s : os) (path : option text) (t : text) : outcome (os * answer * bool) :=
  match path with
  | None => Ok (s, ANil, false)
  | Some p =>
      match open_write true s (until_nul p) with
      | None => Ok (s, ANil, true)
      | Some (s', i) => Ok (fwrite s' i t, AMe, false)
      end
  end.
(** file.c 149-167, [ctr_file_append] *)
Definition file_append (s : os) (path : option text) (t : text) : outcome (os * answer * bool) :=
  match path with
  | None => Ok (s, AMe, false)
  | Some p =>
      match open_write false s (cstring p) with
      | None => Ok (s, ANil, true)
      | Some (s', i) => Ok (fwrite s' i t, AMe, false)
      end
  end.
(** file.c 177-191, [ctr_file_exists] *)
Definition file_exists (s : os) (path : option text) : outcome (os * answer * bool) :=
  match path with
  | None => Ok (s, ABool false, false)
  | Some p => Ok (s, ABool (match open_read s (cstring p) with Some _ => true | None => false end), false)
  end.
(** file.c 204-217, [ctr_file_delete]; [remove] deletes empty folders as well, which is part
    of [removable]. *)
Definition file_delete (s : os) (path : option text) : outcome (os * answer * bool) :=
  match path with
  | None => Ok (s, AMe, false)
  | Some p =>
      match place (cstring p) with
      | None => Ok (s, ANil, true)
      | Some l =>
          match entry s l with
          | Some _ => if removable s l then Ok (mkOs (at_N (entry s) l None) (bytes s), AMe, false)
                      else Ok (s, ANil, true)
          | None => Ok (s, ANil, true)
          end
      end
  end.
(** file.c 230-248, [ctr_file_size].  The size goes through an [int]. *)
Definition file_size (s : os) (path : option text) : outcome (os * answer * bool) :=
  match path with
  | None => Ok (s, ANumber 0, false)
  | Some p =>
      match open_read s (cstring p) with
      | None => Ok (s, ANumber 0, false)
      | Some Folder => UB
      | Some (Regular i) => Ok (s, ANumber (to_int (Z.of_nat (length (bytes s i)))), false)
      end
  end.

(** Messages to files, and histories of them. *)
Inductive op := ORead | OWrite (t : text) | OAppend (t : text) | OExists | ODelete | OSize.
Definition perform (s : os) (path : option text) (o : op) : outcome (os * answer * bool) :=
  match o with
  | ORead => file_read s path
  | OWrite t => file_write s path t
  | OAppend t => file_append s path t
  | OExists => file_exists s path
  | ODelete => file_delete s path
  | OSize => file_size s path
  end.
Fixpoint history (s : os) (h : list (text * op)) : outcome (os * list (answer * bool)) :=
  match h with
  | [] => Ok (s, [])
  | (p, o) :: r => do (s1, a, e) <- perform s (Some p) o; do (s2, l) <- history s1 r; Ok (s2, (a, e) :: l)
  end.
End Files.

(** ** Listing a folder *)

(** file.c 258-339, [ctr_file_list]; [names] is what [opendir] and [readdir] give for the
    folder, [kind] what [realpath] and [lstat] tell about a path ([None]: not resolved), with
    the text used for it.  An item is a map of the name and the kind, in the order of
    the entries of the map.  [fullPath] has 4097 bytes; the test meant to protect it counts
    the separator twice and the path not at all. *)
Definition PATH_MAX : nat := 4096.
Definition dirsep : text := [47%N].
Fixpoint list_loop (kind : text -> option text) (path : text) (names : list text) : outcome (list (text * text)) :=
  match names with
  | [] => Ok []
  | d :: r =>
      if PATH_MAX <? length dirsep + length dirsep + length d then list_loop kind path r
      else if PATH_MAX <? length path + length dirsep + length d then UB
      else
        do l <- list_loop kind path r;
        Ok (match kind (path ++ dirsep ++ d) with Some k => (d, k) :: l | None => l end)
  end.
Definition file_list (opendir : text -> option (list text)) (kind : text -> option text) (path : text) :
  outcome (option (list (text * text))) :=
  match opendir (cstring path) with
  | None => Ok None                                              (* error, Nil *)
  | Some names => do l <- list_loop kind (cstring path) names; Ok (Some l)
  end.
