(** Model of the Request plug-in: plugins/request/request.c and the part of the C CGI library
    (plugins/request/ccgi-1.2/ccgi.c) that it uses.

    A NUL-terminated string is the text in front of the NUL.  [scanattr] and [scanheader] write NULs into the line and
    answer pointers into it; here they answer the pieces.  Linked lists of variables and values are lists. *)
From Verif Require Import Common NumModel SipModel ProgModel.
Local Open Scope N_scope.

Definition cut0 : text -> text := fix cut0 t := match t with [] => [] | c :: r => if c =? 0 then [] else c :: cut0 r end.
Definition varlist := list (text * list text).

(** ccgi.c 160-177, [hex] *)
Definition hex (c : N) : option N :=
  if (48 <=? c) && (c <=? 57) then Some (c - 48)
  else if (65 <=? c) && (c <=? 70) then Some (10 + c - 65)
  else if (97 <=? c) && (c <=? 102) then Some (10 + c - 97)
  else None.

(** ccgi.c 140-153, [findvar] with a name, as the values *)
Fixpoint findvar (v : varlist) (n : text) : option (list text) :=
  match v with [] => None | (m, xs) :: r => if text_eqb m n then Some xs else findvar r n end.
(** ccgi.c 728-773, [CGI_add_var] *)
Fixpoint add_var (v : varlist) (n x : text) : varlist :=
  match v with
  | [] => [(n, [x])]
  | (m, xs) :: r => if text_eqb m n then (m, xs ++ [x]) :: r else (m, xs) :: add_var r n x
  end.
(** ccgi.c 966-968, [CGI_lookup] *)
Definition lookup (v : varlist) (n : text) : option text :=
  match findvar v n with Some (x :: _) => Some x | _ => None end.
(** ccgi.c 981-1004, [CGI_lookup_all]; [numvalue] is the number of values *)
Definition lookup_all (v : varlist) (n : text) : option (list text) := findvar v n.

(** ccgi.c 788-847, [CGI_decode_query]: [size] bytes are allocated for [buf], of which [buf] are written;
    [name] is the place of the NUL behind the name. *)
Definition put (size : nat) (buf : text) (c : N) : outcome text :=
  if (length buf <? size)%nat then Ok (buf ++ [c]) else UB.
Definition end_field (size : nat) (buf : text) (name : option nat) (v : varlist) : outcome varlist :=
  if (length buf <? size)%nat then                                   (* buf[k] = 0 *)
    Ok (match name with
        | Some k => add_var v (cut0 buf) (cut0 (skipn (k + 1) buf))
        | None => match buf with [] => v | _ => add_var v (cut0 buf) [] end
        end)
  else UB.
Fixpoint query_loop (size : nat) (q : text) (buf : text) (name : option nat) (v : varlist) : outcome varlist :=
  match q with
  | [] => end_field size buf name v
  | c :: q1 =>
      if c =? 61 then
        match name with
        | Some _ => do b <- put size buf c; query_loop size q1 b name v
        | None => if (0 <? length buf)%nat
                  then do b <- put size buf 0; query_loop size q1 b (Some (length buf)) v
                  else query_loop size q1 buf None v
        end
      else if c =? 38 then do v' <- end_field size buf name v; query_loop size q1 [] None v'
      else if c =? 43 then do b <- put size buf 32; query_loop size q1 b name v
      else if c =? 37 then
        match q1 with
        | x :: (y :: q3) =>
            match hex x, hex y with
            | Some l, Some r => do b <- put size buf ((16 * l + r) mod 256); query_loop size q3 b name v
            | _, _ => do b <- put size buf c; query_loop size q1 b name v
            end
        | _ => do b <- put size buf c; query_loop size q1 b name v
        end
      else do b <- put size buf c; query_loop size q1 b name v
  end.
Definition decode_query (v : varlist) (q : text) : outcome varlist := query_loop (length q + 1) q [] None v.

(** ccgi.c 227-232, [scanspaces] *)
Fixpoint scanspaces (p : text) : text :=
  match p with c :: r => if (c =? 32) || (c =? 9) then scanspaces r else p | [] => [] end.
Fixpoint span (f : N -> bool) (p : text) : text * text :=
  match p with [] => ([], []) | c :: r => if f c then let '(a, b) := span f r in (c :: a, b) else ([], p) end.
(** ccgi.c 243-281, [scanattr]: name, value and the rest *)
Definition scanattr (p : text) : option (text * text * text) :=
  let '(n, r) := span (fun c => negb (c =? 61)) (scanspaces p) in
  match n, r with
  | [], _ => None
  | _, [] => None
  | _, _ :: r1 =>
      match r1 with
      | q :: r2 =>
          if (q =? 34) || (q =? 39) || (q =? 96) then
            let '(x, s) := span (fun c => negb (c =? q)) r2 in
            match s with
            | [] => None
            | _ :: s1 => Some (n, x, match s1 with c :: s2 => if c =? 59 then s2 else s1 | [] => [] end)
            end
          else
            let '(x, s) := span (fun c => negb ((c =? 59) || (c =? 32) || (c =? 9) || (c =? 13) || (c =? 10))) r1 in
            Some (n, x, match s with [] => [] | _ :: s1 => s1 end)
      | [] => Some (n, [], [])
      end
  end.
(** ccgi.c 855-870, [CGI_get_cookie] with the value of HTTP_COOKIE *)
Fixpoint cookie_loop (fuel : nat) (v : varlist) (p : text) : varlist :=
  match fuel with
  | O => v
  | S f => match scanattr p with None => v | Some (n, x, r) => cookie_loop f (add_var v n x) r end
  end.
Definition get_cookie (v : varlist) (env : option text) : varlist :=
  match env with None => v | Some t => cookie_loop (length t) v t end.
(** ccgi.c 878-880, [CGI_get_query] with the value of QUERY_STRING *)
Definition get_query (v : varlist) (env : option text) : outcome varlist :=
  match env with None => Ok v | Some q => decode_query v q end.

(** [isalnum] of the C locale; [char] is signed, so that bytes above 127 are passed as negative numbers, which is undefined
    in ISO C: here, as in glibc, they are not alphanumeric. *)
Definition isalnum (c : N) : bool :=
  ((48 <=? c) && (c <=? 57)) || ((65 <=? c) && (c <=? 90)) || ((97 <=? c) && (c <=? 122)).
Definition tolower (c : N) : N := if (65 <=? c) && (c <=? 90) then c + 32 else c.
(** [strcasecmp (a, b) == 0] and [strncasecmp (a, b, strlen (b)) == 0] *)
Definition case_eq (a b : text) : bool := text_eqb (map tolower a) (map tolower b).
Definition case_starts (a b : text) : bool := case_eq (firstn (length b) a) b.
(** ccgi.c 295-315, [scanheader]: name, value and the rest *)
Definition scanheader (p : text) : option (text * text * text) :=
  match p with
  | [] => None
  | c :: _ =>
      if isalnum c then
        let '(n, r) := span (fun c => negb (c =? 58)) p in
        match r with
        | [] => None
        | _ :: r1 =>
            let '(x, s) := span (fun c => negb ((c =? 59) || (c =? 13) || (c =? 10))) (scanspaces r1) in
            Some (n, x, match s with [] => [] | _ :: s1 => s1 end)
        end
      else None
  end.
(** ccgi.c 325-343, [readline]: the line with its line feed, and the rest of the input *)
Fixpoint read_on (s : text) : text * text :=
  match s with
  | [] => ([], [])
  | c :: r => if c =? 10 then ([c], r) else let '(a, b) := read_on r in (c :: a, b)
  end.
Definition readline (s : text) : option (text * text) :=
  match s with [] => None | _ => Some (read_on s) end.
(** [boundary[m]], compared as a signed [char] with the [int] of [getc] *)
Definition at_b (b : text) (m : nat) : N := nth m b 0.
Definition same (c d : N) : bool := (c =? d) && (d <? 128).
(** ccgi.c 353-407, [copyvalue]: the bytes in front of the boundary and the rest of the input; [m] is [matched].
    The buffer grows as needed (ccgi.c 91-119; sizes up to 2^30). *)
Fixpoint copy_loop (b : text) (s : text) (m : nat) (acc : text) : text * text :=
  match s with
  | [] => (acc, [])
  | c :: r =>
      let '(acc, m) := if (0 <? m)%nat && negb (same c (at_b b m)) then (acc ++ firstn m b, O) else (acc, m) in
      if same c (at_b b m) then
        if at_b b (m + 1) =? 0 then (acc, r) else copy_loop b r (m + 1) acc
      else copy_loop b r m (acc ++ [c])
  end.
Definition copyvalue (b s : text) : text * text := copy_loop b s 0 [].

Definition s_disposition : text := [67; 111; 110; 116; 101; 110; 116; 45; 68; 105; 115; 112; 111; 115; 105; 116; 105; 111; 110].
Definition s_formdata : text := [102; 111; 114; 109; 45; 100; 97; 116; 97].
Definition s_name : text := [110; 97; 109; 101].
Definition s_filename : text := [102; 105; 108; 101; 110; 97; 109; 101].
Definition s_boundary : text := [98; 111; 117; 110; 100; 97; 114; 121].
Definition s_multipart : text :=
  [109; 117; 108; 116; 105; 112; 97; 114; 116; 47; 102; 111; 114; 109; 45; 100; 97; 116; 97; 59].
Definition s_urlencoded : text :=
  [97; 112; 112; 108; 105; 99; 97; 116; 105; 111; 110; 47; 120; 45; 119; 119; 119; 45; 102; 111; 114; 109; 45; 117; 114; 108;
   101; 110; 99; 111; 100; 101; 100].
(** ccgi.c 486-500: the attributes of the header; [fuel] bounds their number *)
Fixpoint attrs (fuel : nat) (p : text) (name fname : option text) : option text * option text :=
  match fuel with
  | O => (name, fname)
  | S f =>
      match scanattr p with
      | None => (name, fname)
      | Some (a, x, r) =>
          match name with
          | None => if case_eq a s_name then attrs f r (Some x) fname
                    else match fname with
                         | None => if case_eq a s_filename then attrs f r name (Some x) else attrs f r name fname
                         | Some _ => attrs f r name fname
                         end
          | Some _ => match fname with
                      | None => if case_eq a s_filename then attrs f r name (Some x) else attrs f r name fname
                      | Some _ => attrs f r name fname
                      end
          end
      end
  end.
(** ccgi.c 472-502: header lines up to a line that is none; answers that line ([None] at the end of the input) *)
Fixpoint headers (fuel : nat) (s : text) (name fname : option text) : option text * (option text * option text) * text :=
  match fuel with
  | O => (None, (name, fname), s)
  | S f =>
      match readline s with
      | None => (None, (name, fname), s)
      | Some (l, r) =>
          let line := cut0 l in
          match scanheader line with
          | None => (Some line, (name, fname), r)
          | Some (h, x, p) =>
              if case_eq h s_disposition && case_eq x s_formdata
              then let '(name', fname') := attrs (length p) p name fname in headers f r name' fname'
              else headers f r name fname
          end
      end
  end.
Definition is_crlf (l : text) : bool := (nth 0 l 0 =? 13) && (nth 1 l 0 =? 10).
Definition is_last (l : text) : bool :=
  (nth 0 l 0 =? 45) && (nth 1 l 0 =? 45) && (nth 2 l 0 =? 13) && (nth 3 l 0 =? 10).
(** ccgi.c 466-557: the parts.  [mk k] is the path that the [k]-th [mkstemp] creates; the files made so far are collected in [ups]. *)
Record form := mkF { f_vars : varlist; f_made : nat; f_ups : list (text * text) }.
Fixpoint parts (mk : nat -> option text) (b : text) (fuel : nat) (s : text) (st : form) : form :=
  match fuel with
  | O => st
  | S f =>
      let '(line, (name, fname), s1) := headers (S (length s)) s None None in
      match line, name with
      | Some l, Some n =>
          if is_crlf l then
            let '(x, s2) := copyvalue b s1 in
            let st1 :=
              match fname with
              | Some file =>
                  match file with
                  | [] => st
                  | _ => match mk (f_made st) with
                         | Some path => mkF (add_var (add_var (f_vars st) n path) n file) (S (f_made st)) (f_ups st ++ [(path, x)])
                         | None => mkF (f_vars st) (S (f_made st)) (f_ups st)
                         end
                  end
              | None => mkF (add_var (f_vars st) n (cut0 x)) (f_made st) (f_ups st)
              end in
            match readline s2 with
            | Some (l2, s3) => if is_last (cut0 l2) then st1 else parts mk b f s3 st1
            | None => parts mk b f s2 st1
            end
          else st
      | _, _ => st
      end
  end.
(** ccgi.c 426-573, [read_multipart] with the value of CONTENT_TYPE and the standard input *)
Definition read_multipart (mk : nat -> option text) (ctype : option text) (s : text) (v : varlist) : form :=
  let none := mkF v 0 [] in
  match ctype with
  | None => none
  | Some ct =>
      if case_starts ct s_multipart then
        match scanattr (skipn 20 ct) with
        | Some (a, x, _) =>
            if case_eq a s_boundary then
              let b := [13; 10; 45; 45] ++ x in
              let len := (length b - 2)%nat in
              match readline s with
              | Some (l, s1) =>
                  let line := cut0 l in
                  if text_eqb (firstn len line) (skipn 2 b) && (nth len line 0 =? 13) && (nth (len + 1) line 0 =? 10)
                  then parts mk b (S (length s1)) s1 none
                  else none
              | None => none
              end
            else none
        | None => none
        end
      else none
  end.
(** ccgi.c 896-919, [CGI_get_post]; [clen] is the value of CONTENT_LENGTH.  Sizes are passed as [int] to [mymalloc] (ccgi.c 77-85);
    memory is there. *)
Definition get_post (mk : nat -> option text) (ctype clen : option text) (s : text) (v : varlist) : outcome form :=
  let multi := Ok (read_multipart mk ctype s v) in
  match ctype, clen with
  | Some ct, Some t =>
      if case_starts ct s_urlencoded then
        do len <- atoi t;
        if (0 <? len)%Z then
          if (len =? INT_MAX)%Z then UB                              (* len + 1 *)
          else if (Z.of_nat (length s) <? len)%Z then Ok (mkF v 0 [])
          else do v' <- decode_query v (cut0 (firstn (Z.to_nat len) s)); Ok (mkF v' 0 [])
        else multi
      else multi
  | _, _ => multi
  end.

(** request.c 321-339, [begin]: the environment and the input of a request, and what is made of them *)
Record request := mkReq { r_query : option text; r_cookie : option text; r_ctype : option text; r_clen : option text; r_in : text }.
Record seen := mkSeen { s_get : varlist; s_post : varlist; s_cookie : varlist; s_ups : list (text * text) }.
Definition begin (mk : nat -> option text) (r : request) : outcome seen :=
  do g <- get_query [] (r_query r);
  do p <- get_post mk (r_ctype r) (r_clen r) (r_in r) [];
  Ok (mkSeen g (f_vars p) (get_cookie [] (r_cookie r)) (f_ups p)).
(** request.c 42-52, [ctr_request_string]: [None] is Nil; the name loses its NUL bytes *)
Definition key (n : text) : text := filter (fun c => negb (c =? 0)) n.
Definition request_string (v : varlist) (n : text) : option text := lookup v (key n).
(** request.c 59-83, [ctr_request_array] *)
Definition request_array (v : varlist) (n : text) : list text :=
  match lookup_all v (key n) with Some xs => xs | None => [] end.
(** request.c 199-221, [ctr_request_file] *)
Definition request_file (v : varlist) (n : text) : list text :=
  match lookup_all v (key n) with Some (x :: y :: r) => x :: y :: r | _ => [] end.
