(** Writing byte texts as string literals (used in examples). *)
From Coq Require Import NArith List String Ascii.
Definition lit (s : string) : list N := List.map N_of_ascii (list_ascii_of_string s).
