(** Dictionary files: how they are made from two headers (option -g, translator.c 202-268) and how they are read (translator.c 283-383).

    Files are given by their bytes and contain no NULs. *)
From Verif Require Import Common Fuel Txt NumModel LexModel TransModel.
From Coq Require Import String.
Local Open Scope nat_scope.

(** ** [fscanf] by the C standard, for the directives that occur in translator.c 223-226 and 300 *)
Inductive directive := DSpace | DLit (c : N) | DWord (n : nat) | DSet (n : nat) | DChar.
Definition blank (c : N) : bool := ((c =? 32) || (9 <=? c) && (c <=? 13))%N.
Fixpoint skip_blank (t : text) : text := match t with c :: r => if blank c then skip_blank r else t | [] => [] end.
Fixpoint take (p : N -> bool) (n : nat) (t : text) : text * text :=
  match n, t with
  | S k, c :: r => if p c then let '(a, b) := take p k r in (c :: a, b) else ([], t)
  | _, _ => ([], t)
  end.
(** The texts that were stored and the rest of the file.  It stops at the first directive that fails; the number it answers is the number
    of texts stored (or a negative one, which the code does not tell from 0). *)
Fixpoint scan (ds : list directive) (t : text) : list text * text :=
  match ds with
  | [] => ([], t)
  | DSpace :: ds' => scan ds' (skip_blank t)
  | DLit c :: ds' => match t with x :: r => if (x =? c)%N then scan ds' r else ([], t) | [] => ([], []) end
  | DWord n :: ds' =>
      let '(w, r) := take (fun c => negb (blank c)) n (skip_blank t) in
      match w with [] => ([], r) | _ => let '(l, r') := scan ds' r in (w :: l, r') end
  | DSet n :: ds' =>
      let '(w, r) := take (fun c => negb (c =? 34)%N) n t in
      match w with [] => ([], r) | _ => let '(l, r') := scan ds' r in (w :: l, r') end
  | DChar :: ds' => match t with c :: r => let '(l, r') := scan ds' r in ([c] :: l, r') | [] => ([], []) end
  end.

(** ** Making a dictionary *)
Definition define_format : list directive :=
  (map DLit (lit "#define") ++ [DSpace; DWord 180; DSpace; DLit 34; DSet 180; DLit 34; DSpace])%list.
Definition modifier_format : list directive :=
  (map DLit (lit "#define") ++ [DSpace; DWord 180; DSpace; DLit 34; DSet 180; DLit 34; DSpace; DLit 47; DLit 47; DWord 180; DSpace])%list.
(** [strstr (t, s) != NULL] *)
Fixpoint strstr (t s : text) : bool := starts s t || match t with [] => false | _ :: r => strstr r s end.
(** [strtok] with a comma: the texts it gives, and what is left of the string after the first call: everything behind the first of them
    is cut off by a NUL *)
Fixpoint tokens (cur t : text) : list text :=
  match t with
  | [] => match cur with [] => [] | _ => [cur] end
  | c :: r => if (c =? 44)%N then match cur with [] => tokens [] r | _ => cur :: tokens [] r end else tokens (cur ++ [c]) r
  end.
Fixpoint chopped (t : text) : text :=
  match t with
  | [] => []
  | c :: r => if (c =? 44)%N then c :: chopped r else fst (take (fun c => negb (c =? 44)%N) (List.length t) t)
  end.
(** A line as printf writes it (translator.c 238-252) *)
Definition print_line (ty : N) (w t : text) : text := ([ty; 32; 34]%N ++ w ++ [34; 32; 34]%N ++ t ++ [34; 10]%N)%list.
Inductive ending := Complete | Mismatch (key1 key2 : text) (line : nat).
Record state := mkS { f1 : text; f2 : text; key1 : text; word : text; key2 : text; trans : text; modi : text; keys : option text; count : nat; out : text }.
(** The buffers have 180 bytes, one of them for the NUL *)
Definition fit (l : list text) : bool := forallb (fun t => List.length t <? 180) l.
(** translator.c 222-259, one round; [inl]: goes on *)
Definition make_row (s : state) : res (state + ending * text) :=
  let '(l1, r1) := scan define_format (f1 s) in
  if negb (fit l1) then Bad
  else match l1 with
  | [] => Ret (inr (Complete, out s))
  | k1 :: l1' =>
      let w := nth 0 l1' (word s) in
      let '(l2, r2) := scan modifier_format (f2 s) in
      if negb (fit l2) then Bad
      else
        let '(l2, r2) := match l2 with [] => scan define_format r2 | _ => (l2, r2) end in
        if negb (fit l2) then Bad
        else match l2 with
        | [] => Ret (inr (Complete, out s))
        | k2 :: l2' =>
            let t := nth 0 l2' (trans s) in
            let m := nth 1 l2' (modi s) in
            if strstr k1 (lit "_CODEGEN_") || strstr k2 (lit "_CODEGEN_") then Ret (inl (mkS r1 r2 k1 w k2 t m (keys s) (count s) (out s)))
            else if negb (text_eqb k1 k2) then Ret (inr (Mismatch k1 k2 (count s), out s))
            else if starts (lit "CTR_DICT_NUM_DEC_SEP") k1 then Ret (inl (mkS r1 r2 k1 w k2 t [] (keys s) (S (count s)) (out s ++ print_line 100 w t)))
            else if starts (lit "CTR_DICT_NUM_THO_SEP") k1 then Ret (inl (mkS r1 r2 k1 w k2 t [] (keys s) (S (count s)) (out s ++ print_line 120 w t)))
            else
              let line1 := print_line 116 w (m ++ t) in
              let '(line2, keys') := match keys s with
                                     | Some ks => (if existsb (strstr k1) (tokens [] ks) then print_line 115 w t else [], Some (chopped ks))
                                     | None => ([], None)
                                     end in
              Ret (inl (mkS r1 r2 k1 w k2 t [] keys' (S (count s)) (out s ++ line1 ++ line2)))
        end
  end.
Fixpoint make_loop (fuel : nat) (s : state) : res (ending * text) :=
  match fuel with
  | O => NoFuel
  | S k => match make_row s with Ret (inl s') => make_loop k s' | Ret (inr r) => Ret r | Bad => Bad | NoFuel => NoFuel end
  end.
(** translator.c 206-268, [ctr_translate_generate_dicts]; [stringkeys]: STRINGKEYS of the environment.  The answer: what was printed, and
    whether the process ends with the error for different keys. *)
Definition generate_dicts (stringkeys : option text) (file1 file2 : text) : res (ending * text) :=
  make_loop (S (List.length file1)) (mkS file1 file2 [] [] [] [] [] stringkeys 0 []).

(** ** Reading a dictionary *)
Definition line_format : list directive := [DChar; DSpace; DLit 34; DSet 4999; DLit 34; DSpace; DLit 34; DSet 4999; DLit 34; DSpace].
(** translator.c 300-372.  [w], [t]: the buffers; [shift]: how far the pointer [translation] was moved by modifiers (line 324) *)
Fixpoint load_text (d : dict) (fuel : nat) (s : loading) (w t : text) (shift : nat) (file : text) : res (lres loading) :=
  match fuel with
  | O => NoFuel
  | S k =>
      match scan line_format file with
      | ([], _) => Ret (LOk s)
      | (c :: l, r) =>
          let w' := nth 0 l w in
          let t' := nth 1 l t in
          let ty := hd 0%N c in
          if (2 <=? List.length l) && (5000 <=? shift + List.length t') then Bad
          else if ((ty =? ty_t) || (ty =? ty_s))%N && (List.length w' =? 0) then Bad
          else
            let tr := match after_hash t' with Some x => x | None => t' end in
            match load_line d s (ty, w', t') with
            | LOk s' => load_text d k s' w' tr (shift + (List.length t' - List.length tr)) r
            | LExit => Ret LExit
            | LUB => Bad
            end
      end
  end.
(** translator.c 283-383, [ctr_translate_load_dictionary] *)
Definition load_file (d : dict) (file : text) : res (lres tdict) :=
  let! r := load_text d (S (List.length file)) (mkLoading [] [] None None 0) [] [] 0 file in
  match r with
  | LOk s => match l_dec s, l_tho s with
             | Some de, Some th => Ret (LOk (mkTdict (l_last s) de th (l_prefix s)))
             | _, _ => Ret LExit
             end
  | LExit => Ret LExit
  | LUB => Bad
  end.
