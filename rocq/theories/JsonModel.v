(** Model of the Json plugin: the escaping of texts, the tokeniser jsmn and the
    conversions between maps and Json text (plugins/jsmn/jsmn.c, plugins/jsmn/jsmn/jsmn.c).

    The plugin is compiled with [JSMN_STRICT] and [JSMN_PARENT_LINKS]
    (plugins/jsmn/makefile 21-30); only that variant is modelled.  Positions and token
    numbers, [int]s in the code, are natural numbers: texts have fewer than 2^31 bytes.
    Memory handed out by the allocator is zero-filled (true while the pools are not used,
    see C53). *)
From Verif Require Import Common NumModel.
Local Open Scope nat_scope.

(** Bytes: quote, backslash and the control characters treated specially. *)
Definition cQ : N := 34. Definition cB : N := 92. Definition cTab : N := 9. Definition cNl : N := 10.
Definition cCr : N := 13. Definition cBs : N := 8. Definition cFf : N := 12.

(** ** Escaping *)

(** jsmn.c 66-81 and 135-150: letter used for a control character, the character itself otherwise. *)
Definition describe (c : N) : N :=
  (if c =? cTab then 116 else if c =? cCr then 114 else if c =? cNl then 110 else if c =? cBs then 98 else c)%N.
Definition is_control (c : N) : bool := ((c =? cTab) || (c =? cCr) || (c =? cNl) || (c =? cBs))%N.

(** jsmn.c 45-55: the number of bytes to add. *)
Definition count_byte (c : N) (s : text) : nat := length (filter (N.eqb c) s).
Definition tag_len (chars s : text) : nat := fold_right (fun c n => count_byte c s + n) 0 chars.

(** jsmn.c 60-96: the bytes written for one byte of the text (the inner loop stops at the
    first match). *)
Fixpoint esc_byte (chars : text) (c : N) : text :=
  match chars with
  | [] => [c]
  | x :: xs => if (c =? x)%N then [cB; if is_control x then describe x else c] else esc_byte xs c
  end.

(** A text of [n] bytes built from a zero-filled block into which [w] was written;
    [room n] bytes are usable when [n] are asked for. *)
Definition built (room : Z -> Z) (n : Z) (w : text) : outcome text :=
  if (room n <? Z.of_nat (length w))%Z then UB
  else if (n <? 0)%Z then UB
  else Ok (firstn (Z.to_nat n) (w ++ repeat 0%N (Z.to_nat n - length w))).

(** jsmn.c 23-101, [ctr_string_escape] *)
Definition string_escape (room : Z -> Z) (chars s : text) : outcome text :=
  match chars with
  | [] => Ok s
  | _ => built room (Z.of_nat (length s + tag_len chars s)) (flat_map (esc_byte chars) s)
  end.

(** jsmn.c 151-155: positions with a backslash before the description of [c]. *)
Fixpoint count_pairs (d : N) (s : text) : nat :=
  match s with
  | a :: ((b :: _) as r) => (if ((a =? cB) && (b =? d))%N then 1 else 0) + count_pairs d r
  | _ => 0
  end.
Definition minus_len (chars s : text) : nat :=
  fold_right (fun c n => count_pairs (describe c) s + n) 0 chars.

(** jsmn.c 182-197: the byte written for a pair. *)
Definition undescribe (x : N) (d : N) : N :=
  if is_control x then
    (if d =? 110 then cNl else if d =? 114 then cCr else if d =? 116 then cTab else cBs)%N
  else d.
(** jsmn.c 161-201: the loop over the characters at one position; it goes on after a match,
    with [i] moved to the second byte of the pair. *)
Fixpoint un_inner (chars rest out : text) (done : bool) : text * text * bool :=
  match chars with
  | [] => (rest, out, done)
  | x :: xs =>
      match rest with
      | a :: b :: r =>
          if ((a =? cB) && (b =? describe x))%N
          then un_inner xs (b :: r) (out ++ [undescribe x (describe x)]) true
          else un_inner xs rest out done
      | _ => un_inner xs rest out done
      end
  end.
(** jsmn.c 159-205: the loop over the text; [fuel] is its length. *)
Fixpoint un_loop (fuel : nat) (chars rest out : text) : text :=
  match fuel, rest with
  | S f, c :: _ =>
      let '(rest', out', done) := un_inner chars rest out false in
      match rest' with
      | c' :: r => un_loop f chars r (if done then out' else out' ++ [c'])
      | [] => out'
      end
  | _, _ => out
  end.
(** jsmn.c 109-212, [ctr_string_unescape] *)
Definition string_unescape (room : Z -> Z) (chars s : text) : outcome text :=
  match chars with
  | [] => Ok s
  | _ => built room (Z.of_nat (length s) - Z.of_nat (minus_len chars s)) (un_loop (length s) chars s [])
  end.

(** jsmn.c 255 and 391, 424: the characters used by the Json object in either direction. *)
Definition un_chars : text := [cQ; cTab; cBs; cNl; cCr; cFf; cB].
Definition esc_chars : text := [cQ; cNl; cBs; cCr; cTab; cFf; cB].

(** ** The tokeniser *)

(** jsmn/jsmn.h 18-24, 40-48.  [start] is always set when a token is in use; [k_end] and
    [k_parent] are [None] for -1. *)
Inductive jtype := TUndef | TObject | TArray | TString | TPrim.
Record tok := mkTok { k_type : jtype; k_start : nat; k_end : option nat; k_size : nat; k_parent : option nat }.
Definition no_tok : tok := mkTok TUndef 0 (Some 0) 0 (Some 0).      (* zero-filled memory *)
Inductive jerr := ENomem | EInval | EPart.
Definition jtype_eqb (a b : jtype) : bool :=
  match a, b with
  | TUndef, TUndef | TObject, TObject | TArray, TArray | TString, TString | TPrim, TPrim => true
  | _, _ => false
  end.

Definition blank (c : N) : bool := ((c =? 9) || (c =? 13) || (c =? 10) || (c =? 32))%N.
Definition ends_prim (c : N) : bool := (blank c || (c =? 44) || (c =? 93) || (c =? 125))%N.

(** jsmn/jsmn.c 42-61: end of a primitive; bytes from 128 are negative [char]s. *)
Fixpoint scan_prim (rest : text) (pos : nat) : (nat * text) + jerr :=
  match rest with
  | [] => inr EPart
  | c :: r =>
      if (c =? 0)%N then inr EPart
      else if ends_prim c then inl (pos, rest)
      else if ((c <? 32) || (127 <=? c))%N then inr EInval
      else scan_prim r (S pos)
  end.

(** jsmn/jsmn.c 93-145: [SNormal] is the head of the loop, [SEsc] the byte after a
    backslash, [SHex n] the [n] remaining bytes of [\u]. *)
Inductive smode := SNormal | SEsc | SHex (n : nat).
Definition is_hex (c : N) : bool :=
  (((48 <=? c) && (c <=? 57)) || ((65 <=? c) && (c <=? 70)) || ((97 <=? c) && (c <=? 102)))%N.
Definition allowed (c : N) : bool :=
  ((c =? cQ) || (c =? 47) || (c =? cB) || (c =? 98) || (c =? 102) || (c =? 114) || (c =? 110) || (c =? 116))%N.
Fixpoint scan_string (m : smode) (rest : text) (pos : nat) : (nat * text) + jerr :=
  match rest with
  | [] => inr EPart
  | c :: r =>
      match m with
      | SEsc => if allowed c then scan_string SNormal r (S pos)
                else if (c =? 117)%N then scan_string (SHex 4) r (S pos)
                else inr EInval
      | SHex (S n) => if (c =? 0)%N then inr EPart
                      else if is_hex c then scan_string (SHex n) r (S pos)
                      else inr EInval
      | _ => if (c =? 0)%N then inr EPart
             else if (c =? cQ)%N then inl (pos, r)
             else if (c =? cB)%N && match r with [] => false | _ => true end then scan_string SEsc r (S pos)
             else scan_string SNormal r (S pos)
      end
  end.

Fixpoint upd_tok (l : list tok) (i : nat) (f : tok -> tok) : list tok :=
  match l, i with
  | [], _ => []
  | t :: r, O => f t :: r
  | t :: r, S j => t :: upd_tok r j f
  end.
Definition add_size (t : tok) : tok := mkTok (k_type t) (k_start t) (k_end t) (S (k_size t)) (k_parent t).
Definition set_end (e : nat) (t : tok) : tok := mkTok (k_type t) (k_start t) (Some e) (k_size t) (k_parent t).

(** jsmn/jsmn.c 190-207: the open token to be closed by a bracket.  [None]: the walk leaves
    the tokens or does not end. *)
Inductive closing := Closed (l : list tok) (super : option nat) | CInval.
Fixpoint close_loop (fuel : nat) (l : list tok) (i : nat) (ty : jtype) (pos : nat) (super : option nat) : option closing :=
  match fuel with
  | O => None
  | S f =>
      match nth_error l i with
      | None => None
      | Some t =>
          match k_end t with
          | None => if jtype_eqb (k_type t) ty
                    then Some (Closed (upd_tok l i (set_end (S pos))) (k_parent t))
                    else Some CInval
          | Some _ =>
              match k_parent t with
              | None => if negb (jtype_eqb (k_type t) ty) || match super with None => true | _ => false end
                        then Some CInval else Some (Closed l super)
              | Some p => close_loop f l p ty pos super
              end
          end
      end
  end.

(** Result of [jsmn_parse]: the answer and the tokens written. *)
Inductive jres := JDone (count : nat) (l : list tok) | JFail (e : jerr) (l : list tok) | JBad.

Definition starts_prim (c : N) : bool :=
  ((c =? 45) || ((48 <=? c) && (c <=? 57)) || (c =? 116) || (c =? 102) || (c =? 110))%N.
Definition type_of (l : list tok) (i : nat) : option jtype :=
  match nth_error l i with Some t => Some (k_type t) | None => None end.

(** jsmn/jsmn.c 267-273: a primitive is no key and no second value of a key. *)
Definition prim_refused (l : list tok) (super : option nat) : option bool :=
  match super with
  | None => Some false
  | Some s => match nth_error l s with
              | None => None
              | Some t => Some (match k_type t with
                                | TObject => true
                                | TString => negb (k_size t =? 0)
                                | _ => false
                                end)
              end
  end.
Definition bump (l : list tok) (super : option nat) : option (list tok) :=
  match super with
  | None => Some l
  | Some s => if s <? length l then Some (upd_tok l s add_size) else None
  end.
Definition is_open (t : tok) : bool := match k_end t with None => true | Some _ => false end.

(** jsmn/jsmn.c 151-303, [jsmn_parse] with [tokens == NULL]: only counts.  [fuel] exceeds the
    length of the rest of the text. *)
Fixpoint jsmn_count (fuel : nat) (rest : text) (pos count : nat) : jres :=
  match fuel with
  | O => JBad
  | S f =>
      match rest with
      | [] => JDone count []
      | c :: r =>
          if (c =? 0)%N then JDone count []
          else if ((c =? 123) || (c =? 91))%N then jsmn_count f r (S pos) (S count)
          else if ((c =? 125) || (c =? 93))%N then jsmn_count f r (S pos) count
          else if (c =? cQ)%N then
            match scan_string SNormal r (S pos) with
            | inr e => JFail e []
            | inl (p, r') => jsmn_count f r' (S p) (S count)
            end
          else if blank c || ((c =? 58) || (c =? 44))%N then jsmn_count f r (S pos) count
          else if starts_prim c then
            match scan_prim rest pos with
            | inr e => JFail e []
            | inl (p, r') => jsmn_count f r' p (S count)
            end
          else JFail EInval []
      end
  end.

(** jsmn/jsmn.c 151-303, [jsmn_parse] with an array of [cap] tokens. *)
Fixpoint jsmn_loop (fuel cap : nat) (rest : text) (pos : nat) (super : option nat) (l : list tok) (count : nat) : jres :=
  match fuel with
  | O => JBad
  | S f =>
      let fin := if existsb is_open l then JFail EPart l else JDone count l in
      match rest with
      | [] => fin
      | c :: r =>
          if (c =? 0)%N then fin
          else if ((c =? 123) || (c =? 91))%N then
            if cap <=? length l then JFail ENomem l
            else match bump (l ++ [mkTok (if (c =? 123)%N then TObject else TArray) pos None 0 super]) super with
                 | None => JBad
                 | Some l' => jsmn_loop f cap r (S pos) (Some (length l)) l' (S count)
                 end
          else if ((c =? 125) || (c =? 93))%N then
            match l with
            | [] => JFail EInval l
            | _ => match close_loop (length l) l (length l - 1) (if (c =? 125)%N then TObject else TArray) pos super with
                   | None => JBad
                   | Some CInval => JFail EInval l
                   | Some (Closed l' s') => jsmn_loop f cap r (S pos) s' l' count
                   end
            end
          else if (c =? cQ)%N then
            match scan_string SNormal r (S pos) with
            | inr e => JFail e l
            | inl (p, r') =>
                if cap <=? length l then JFail ENomem l
                else match bump (l ++ [mkTok TString (S pos) (Some p) 0 super]) super with
                     | None => JBad
                     | Some l' => jsmn_loop f cap r' (S p) super l' (S count)
                     end
            end
          else if blank c then jsmn_loop f cap r (S pos) super l count
          else if (c =? 58)%N then
            jsmn_loop f cap r (S pos) (match l with [] => None | _ => Some (length l - 1) end) l count
          else if (c =? 44)%N then
            match super with
            | None => jsmn_loop f cap r (S pos) super l count
            | Some s =>
                match nth_error l s with
                | None => JBad
                | Some t => match k_type t with
                            | TArray | TObject => jsmn_loop f cap r (S pos) super l count
                            | _ => jsmn_loop f cap r (S pos) (k_parent t) l count
                            end
                end
            end
          else if starts_prim c then
            match prim_refused l super with
            | None => JBad
            | Some true => JFail EInval l
            | Some false =>
                match scan_prim rest pos with
                | inr e => JFail e l
                | inl (p, r') =>
                    if cap <=? length l then JFail ENomem l
                    else match bump (l ++ [mkTok TPrim pos (Some p) 0 super]) super with
                         | None => JBad
                         | Some l' => jsmn_loop f cap r' p super l' (S count)
                         end
                end
            end
          else JFail EInval l
      end
  end.

(** ** Objects *)

(** A value as seen by the plugin.  A map lists its items from the head of its property
    list, i.e. the item added last comes first; keys of maps are texts
    (collections.c 795-803). *)
Inductive jv :=
| JNil | JBool (b : bool) | JNum (x : num) | JText (t : text)
| JList (l : list jv) | JMap (kvs : list (text * jv)).

(** collections.c 785-808, world.c 175-255: delete the key, then add the item at the head. *)
Definition jput (kvs : list (text * jv)) (k : text) (v : jv) : list (text * jv) :=
  (k, v) :: filter (fun p => negb (text_eqb (fst p) k)) kvs.

(** jsmn.c 231-308, [ctr_jsmn_dump].  [readn] is the conversion of a text to a number
    ([ctr_string_to_number]), [name] the text used as key for a value that is no text.
    The state is the number of the token and whether an error is pending. *)
Section Dump.
Variables (room : Z -> Z) (readn : text -> outcome num) (name : jv -> text) (js : text) (ar : list tok).

Definition key_of (v : jv) : text := match v with JText t => t | _ => name v end.

Definition dump_list (dump : nat -> bool -> outcome (jv * nat * bool)) : nat -> nat -> bool -> outcome (list jv * nat * bool) :=
  fix go (n i : nat) (flow : bool) :=
  match n with
  | O => Ok ([], i, flow)
  | S m => do (v, i1, flow1) <- dump i flow;
           do (l, i2, flow2) <- go m i1 flow1;
           Ok (v :: l, i2, flow2)
  end.
Definition dump_map (dump : nat -> bool -> outcome (jv * nat * bool)) :
  nat -> nat -> bool -> list (text * jv) -> outcome (list (text * jv) * nat * bool) :=
  fix go (n i : nat) (flow : bool) (acc : list (text * jv)) :=
  match n with
  | O => Ok (acc, i, flow)
  | S m => do (k, i1, flow1) <- dump i flow;
           do (v, i2, flow2) <- dump i1 flow1;
           if flow2 then Ok (acc, i2, flow2)
           else go m i2 flow2 (jput acc (key_of k) v)
  end.

Fixpoint dump (fuel i : nat) (flow : bool) : outcome (jv * nat * bool) :=
  match fuel with
  | O => UB
  | S f =>
      if flow then Ok (JNil, i, true)
      else
        match nth_error ar i with
        | None => UB
        | Some t =>
            match k_end t with
            | None => Ok (JNil, i, true)
            | Some e =>
                if (length js <=? k_start t) || (e <? k_start t) || (length js <? e - k_start t)
                then Ok (JNil, i, true)
                else
                  match k_type t with
                  | TString =>
                      do s <- slice js (k_start t) (e - k_start t);
                      do u <- string_unescape room un_chars s;
                      Ok (JText u, S i, false)
                  | TPrim =>
                      do c <- rd js (k_start t);
                      do v <- (if (c =? 116)%N then Ok (JBool true)
                               else if (c =? 102)%N then Ok (JBool false)
                               else if (c =? 110)%N then Ok JNil
                               else if ((c =? 45) || ((48 <=? c) && (c <=? 57)))%N then
                                 do s <- slice js (k_start t) (e - k_start t);
                                 do x <- readn s;
                                 Ok (JNum x)
                               else Ok JNil);
                      Ok (v, S i, false)
                  | TArray =>
                      do (l, i', flow') <- dump_list (dump f) (k_size t) (S i) false;
                      Ok (JList l, i', flow')
                  | TObject =>
                      do (m, i', flow') <- dump_map (dump f) (k_size t) (S i) false [];
                      Ok (JMap m, i', flow')
                  | TUndef => Ok (JNil, i, true)
                  end
            end
        end
  end.
End Dump.

(** Answer of [Json parse:]: a value, or Nil with an error pending; [None] in [parsed] also
    covers the partial value answered beside an error. *)
Inductive parsed := PValue (v : jv) | PError.

(** memory.c 264-281, [ctr_heap_allocate_cstring]: NUL bytes are left out. *)
Definition cstring (t : text) : text := filter (fun c => negb (c =? 0)%N) t.

(** jsmn.c 323-357, [ctr_json_parse].  The test [r < size] compares as unsigned numbers, so a
    negative answer of the second pass is not noticed. *)
Definition json_parse (room : Z -> Z) (readn : text -> outcome num) (name : jv -> text) (t : text) : outcome parsed :=
  let js := cstring t in
  match jsmn_count (S (length js)) js 0 0 with
  | JBad => UB
  | JFail _ _ => Ok PError
  | JDone O _ => Ok PError
  | JDone s _ =>
      match jsmn_loop (S (length js)) s js 0 None [] 0 with
      | JBad => UB
      | r =>
          let '(few, l) := match r with JDone n l => (n <? s, l) | JFail _ l => (false, l) | JBad => (true, []) end in
          let ar := l ++ repeat no_tok (s - length l) in
          match ar with
          | [] => UB
          | t0 :: _ =>
              if few || negb (jtype_eqb (k_type t0) TObject) then Ok PError
              else
                do (v, i, flow) <- dump room readn name js ar (S s) 0 false;
                Ok (if flow then PError else PValue v)
          end
      end
  end.

(** jsmn.c 365-485, [ctr_json_jsonify].  [JTop] is the argument of the message, [JVal] the
    value of an item of a map, [JElem] an element of a list.  [show] is the text of a number
    ([ctr_string_append] casts it to a text).  A value at the top that is no map has no
    items; so has a list inside a list, for which the function calls itself (462-466).
    Texts in a list are escaped with the quote only: [newArgumentList] still holds the
    opening quote (453-460). *)
Inductive place := JTop | JVal | JElem.
Definition quoted (room : Z -> Z) (chars t : text) : outcome text :=
  do e <- string_escape room chars t; Ok ([cQ] ++ e ++ [cQ]).
Definition t_true : text := [116;114;117;101]%N.
Definition t_false : text := [102;97;108;115;101]%N.
Definition t_null : text := [110;117;108;108]%N.
Section Jsonify.
Variables (room : Z -> Z) (show : num -> outcome text).
Fixpoint jsonify (p : place) (v : jv) : outcome text :=
  match v with
  | JMap kvs =>
      do b <- (fix go (kvs : list (text * jv)) : outcome text :=
                 match kvs with
                 | [] => Ok []
                 | (k, v) :: r =>
                     do a <- quoted room esc_chars k;
                     do b <- jsonify JVal v;
                     do c <- go r;
                     Ok (a ++ [58%N] ++ b ++ match r with [] => c | _ => [44; 32]%N ++ c end)
                 end) kvs;
      Ok ([123%N] ++ b ++ [125%N])
  | _ =>
      match p, v with
      | JTop, _ => Ok [123; 125]%N
      | _, JNil => Ok t_null
      | _, JBool b => Ok (if b then t_true else t_false)
      | _, JNum x => show x
      | JVal, JText t => quoted room esc_chars t
      | JElem, JText t => quoted room [cQ] t
      | JVal, JList l =>
          do b <- (fix go (l : list jv) : outcome text :=
                     match l with
                     | [] => Ok []
                     | v :: r =>
                         do a <- jsonify JElem v;
                         do c <- go r;
                         Ok (a ++ match r with [] => c | _ => [44%N] ++ c end)
                     end) l;
          Ok ([91%N] ++ b ++ [93%N])
      | _, _ => Ok [123; 125]%N
      end
  end.
Definition json_jsonify (v : jv) : outcome text := jsonify JTop v.
End Jsonify.

(** How the plugin writes and reads numbers, with separators of one byte: base.c 1524-1563
    and 2215-2217.  Forms of [atof] that are no decimal numerals (infinities, hexadecimal
    numbers) are not modelled. *)
Definition show_number (d t : N) (x : num) : outcome text := number_to_string [d] [t] (repeat 0%N 100) None x.
Definition read_number (d t : N) (s : text) : outcome num :=
  do o <- number_from_text true [d] [t] (repeat 0%N 41) (repeat 0%N 41) s; match o with Some x => Ok x | None => UB end.
