(** The codes of the C CGI library (plugins/request/ccgi-1.2/ccgi.c 181-221, 585-715, 1035-1340).

    Null pointers as arguments (the functions answer NULL) are left out.  [mymalloc] (ccgi.c 77-85) takes the size as an [int]: larger
    sizes are UB here.  Memory that is written is the text [buf] of a block of [size] bytes ([put] of ReqModel). *)
From Coq Require Import String.
From Verif Require Import Common Txt ReqModel.
Local Open Scope N_scope.
Local Notation length := List.length.
Local Notation "'tx' s" := (lit s%string) (at level 8, s at level 0).

Definition fits (n : nat) : bool := (Z.of_nat n <=? 2147483647)%Z.
(** the NUL at the end *)
Definition ended (size : nat) (buf : text) : outcome text := if (length buf <? size)%nat then Ok buf else UB.
Fixpoint puts (size : nat) (buf t : text) : outcome text := match t with [] => Ok buf | c :: r => do b <- put size buf c; puts size b r end.
Definition kept (keep : option text) (c : N) : bool := match keep with Some k => existsb (N.eqb c) k | None => false end.
Definition hexdigit : text := tx "0123456789ABCDEF".

(** ccgi.c 181-195, [urlcount] *)
Fixpoint urlcount (keep : option text) (p : text) : nat :=
  match p with [] => 0%nat | c :: r => (if (isalnum c || (c =? 32) || kept keep c)%N then 1 + urlcount keep r else 3 + urlcount keep r)%nat end.
(** ccgi.c 202-223, [urlencode] *)
Fixpoint urlencode (size : nat) (keep : option text) (p buf : text) : outcome text :=
  match p with
  | [] => ended size buf
  | c :: r =>
      if isalnum c || kept keep c then do b <- put size buf c; urlencode size keep r b
      else if c =? 32 then do b <- put size buf 43; urlencode size keep r b
      else
        do x <- rd hexdigit (N.to_nat (N.land (N.shiftr c 4) 15));
        do y <- rd hexdigit (N.to_nat (N.land c 15));
        do b <- puts size buf [37; x; y];
        urlencode size keep r b
  end.
(** ccgi.c 585-615, [CGI_decode_url] *)
Fixpoint decode_loop (size : nat) (p buf : text) : outcome text :=
  match p with
  | [] => ended size buf
  | c :: r =>
      if c =? 43 then do b <- put size buf 32; decode_loop size r b
      else if c =? 37 then
        match r with
        | x :: (y :: r') =>
            match hex x, hex y with
            | Some l, Some h => do b <- put size buf ((N.shiftl l 4 + h) mod 256); decode_loop size r' b
            | _, _ => do b <- put size buf c; decode_loop size r b
            end
        | _ => do b <- put size buf c; decode_loop size r b
        end
      else do b <- put size buf c; decode_loop size r b
  end.
Definition decode_url (p : text) : outcome text := if fits (length p + 1) then decode_loop (length p + 1) p [] else UB.
(** ccgi.c 622-632, [CGI_encode_url] *)
Definition encode_url (keep : option text) (p : text) : outcome text :=
  if fits (urlcount keep p + 1) then urlencode (urlcount keep p + 1) keep p [] else UB.
(** ccgi.c 641-677, [CGI_encode_query]: [args] are the strings in front of the null pointer *)
Definition counted (keep : option text) (args : list text) : nat := fold_right (fun a n => (urlcount keep a + 1 + n)%nat) 0%nat args.
Fixpoint pairs_loop (size : nat) (keep : option text) (args : list text) (buf : text) : outcome text :=
  match args with
  | n :: (v :: r) =>
      do b <- (match buf with [] => Ok buf | _ => put size buf 38 end);
      do b <- urlencode size keep n b;
      do b <- put size b 61;
      do b <- urlencode size keep v b;
      pairs_loop size keep r b
  | _ => ended size buf
  end.
Definition encode_query (keep : option text) (args : list text) : outcome (option text) :=
  let k := counted keep args in
  if (k =? 0)%nat then Ok None
  else if fits k then do b <- pairs_loop k keep args []; Ok (Some b) else UB.
(** ccgi.c 685-718, [CGI_encode_varlist]: the two loops over variables and their values, one after the other *)
Definition all_values (v : varlist) : list (text * text) := flat_map (fun e => map (fun x => (fst e, x)) (snd e)) v.
Definition counted_vars (keep : option text) (l : list (text * text)) : nat :=
  fold_right (fun e n => (2 + urlcount keep (fst e) + urlcount keep (snd e) + n)%nat) 0%nat l.
Fixpoint vars_loop (size : nat) (keep : option text) (l : list (text * text)) (buf : text) : outcome text :=
  match l with
  | [] => ended size buf
  | (n, x) :: r =>
      do b <- (match buf with [] => Ok buf | _ => put size buf 38 end);
      do b <- urlencode size keep n b;
      do b <- put size b 61;
      do b <- urlencode size keep x b;
      vars_loop size keep r b
  end.
Definition encode_varlist (keep : option text) (v : varlist) : outcome (option text) :=
  let l := all_values v in
  let k := counted_vars keep l in
  if (k =? 0)%nat then Ok None
  else if fits k then do b <- vars_loop k keep l []; Ok (Some b) else UB.

(** ccgi.c 1035-1124, [CGI_encode_entity]: counting and writing *)
Fixpoint entity_count (p : text) : nat :=
  match p with
  | [] => 0%nat
  | c :: r => ((if ((c =? 60) || (c =? 62))%N then 4 else if ((c =? 38) || (c =? 39) || (c =? 13) || (c =? 10))%N then 5 else if (c =? 34)%N then 6 else 1) + entity_count r)%nat
  end.
Fixpoint entity_loop (size : nat) (p buf : text) : outcome text :=
  match p with
  | [] => ended size buf
  | c :: r =>
      do b <- puts size buf (if c =? 60 then tx "&lt;" else if c =? 62 then tx "&gt;" else if c =? 38 then tx "&amp;" else if c =? 39 then tx "&#39;"
                             else if c =? 13 then tx "&#13;" else if c =? 10 then tx "&#10;" else if c =? 34 then tx "&quot;" else [c]);
      entity_loop size r b
  end.
Definition encode_entity (p : text) : outcome text :=
  if fits (entity_count p + 1) then entity_loop (entity_count p + 1) p [] else UB.

(** ccgi.c 1128-1129, [b64encode] *)
Definition b64encode : text := tx "ABCDEFGHIJKLMNOPQRSTUVWXYZabcdefghijklmnopqrstuvwxyz0123456789+/".
(** ccgi.c 1133-1169, [b64decode] with [BAD] = 100 *)
Definition b64decode : list N :=
  repeat 100 43 ++ [62; 100; 100; 100; 63;
   52; 53; 54; 55; 56; 57; 58; 59; 60; 61; 100; 100; 100; 100; 100; 100;
   100; 0; 1; 2; 3; 4; 5; 6; 7; 8; 9; 10; 11; 12; 13; 14; 15; 16; 17; 18; 19; 20; 21; 22; 23; 24; 25; 100; 100; 100; 100; 100;
   100; 26; 27; 28; 29; 30; 31; 32; 33; 34; 35; 36; 37; 38; 39; 40; 41; 42; 43; 44; 45; 46; 47; 48; 49; 50; 51; 100; 100; 100; 100; 100]
  ++ repeat 100 128.
(** ccgi.c 1190-1203: three bytes for four letters; answers [save], [nbits] and what was written *)
Fixpoint unbase_loop (size : nat) (p : text) (save nbits : N) (buf : text) : outcome (N * N * text) :=
  match p with
  | [] => Ok (save, nbits, buf)
  | c :: r =>
      do six <- rd b64decode (N.to_nat c);
      if six =? 100 then unbase_loop size r save nbits buf
      else
        let save := N.lor save (N.shiftl six (18 - nbits)) in
        if nbits + 6 =? 24
        then do b <- puts size buf [N.shiftr save 16 mod 256; N.shiftr save 8 mod 256; save mod 256]; unbase_loop size r 0 0 b
        else unbase_loop size r save (nbits + 6) buf
  end.
(** ccgi.c 1207-1210: [i] is 16, 8 and 0 *)
Fixpoint unbase_rest (size : nat) (is : list N) (save nbits : N) (buf : text) : outcome text :=
  match is with
  | [] => Ok buf
  | i :: r => if 8 <=? nbits then do b <- put size buf (N.shiftr save i mod 256); unbase_rest size r save (nbits - 8) b else Ok buf
  end.
(** ccgi.c 1178-1216, [CGI_decode_base64] *)
Definition decode_base64 (p : text) : outcome text :=
  let size := (3 + 3 * length p / 4)%nat in
  if fits size then
    do x <- unbase_loop size p 0 0 [];
    let '(save, nbits, buf) := x in
    do b <- unbase_rest size [16; 8; 0] save nbits buf;
    ended size b
  else UB.
Definition digit (save i : N) : outcome N := rd b64encode (N.to_nat (N.land (N.shiftr save i) 63)).
(** ccgi.c 1239-1249: four letters for three bytes *)
Fixpoint base_loop (size : nat) (p : text) (save nbits : N) (buf : text) : outcome (N * N * text) :=
  match p with
  | [] => Ok (save, nbits, buf)
  | c :: r =>
      let save := N.lor save (N.shiftl c (16 - nbits)) in
      if nbits + 8 =? 24
      then do a <- digit save 18; do b <- digit save 12; do c' <- digit save 6; do d <- digit save 0;
           do buf <- puts size buf [a; b; c'; d];
           base_loop size r 0 0 buf
      else base_loop size r save (nbits + 8) buf
  end.
(** ccgi.c 1254-1262: [i] is 18, 12, 6 and 0; [nbits] may become negative *)
Fixpoint base_rest (size : nat) (is : list N) (save : N) (nbits : Z) (buf : text) : outcome text :=
  match is with
  | [] => Ok buf
  | i :: r => if (0 <? nbits)%Z then do d <- digit save i; do b <- put size buf d; base_rest size r save (nbits - 6) b
              else do b <- put size buf 61; base_rest size r save nbits b
  end.
(** ccgi.c 1225-1266, [CGI_encode_base64]; [None]: NULL *)
Definition encode_base64 (p : text) : outcome (option text) :=
  match p with
  | [] => Ok None
  | _ => if fits (4 * length p) && fits (4 + 4 * length p / 3) then
           let size := (4 + 4 * length p / 3)%nat in
           do x <- base_loop size p 0 0 [];
           let '(save, nbits, buf) := x in
           do b <- (if 0 <? nbits then base_rest size [18; 12; 6; 0] save (Z.of_N nbits) buf else Ok buf);
           do b <- ended size b;
           Ok (Some b)
         else UB
  end.

(** ccgi.c 1286-1296 *)
Fixpoint unhex_loop (size : nat) (p buf : text) : outcome (option text) :=
  match p with
  | x :: (y :: r) => match hex x, hex y with
                     | Some l, Some h => do b <- put size buf ((N.shiftl l 4 + h) mod 256); unhex_loop size r b
                     | _, _ => Ok None
                     end
  | _ => do b <- ended size buf; Ok (Some b)
  end.
(** ccgi.c 1277-1302, [CGI_decode_hex] *)
Definition decode_hex (p : text) : outcome (option text) :=
  if fits (length p) then if Nat.odd (length p) then Ok None else unhex_loop (length p / 2 + 1) p [] else UB.
(** ccgi.c 1308-1325, [CGI_encode_hex] *)
Fixpoint hex_loop (size : nat) (p buf : text) : outcome text :=
  match p with
  | [] => ended size buf
  | c :: r => do x <- rd hexdigit (N.to_nat (N.shiftr c 4)); do y <- rd hexdigit (N.to_nat (N.land c 15)); do b <- puts size buf [x; y]; hex_loop size r b
  end.
Definition encode_hex (p : text) : outcome (option text) :=
  match p with
  | [] => Ok None
  | _ => if fits (length p * 2 + 1) then do b <- hex_loop (length p * 2 + 1) p []; Ok (Some b) else UB
  end.
