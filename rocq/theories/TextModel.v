(** Model of utf8.c and of the text methods of base.c (lines 1616-2424),
    plus [ctr_internal_memmem] of world.c. *)
From Verif Require Import Common.

(** ** utf8.c *)

(** utf8.c 8-13, [ctr_utf8size] (masks: citrine.h 78-80).  [char] is signed, but
    [c & mask] only looks at the low eight bits. *)
Definition utf8size (c : N) : nat :=
  if (N.land c 240 =? 240)%N then 4
  else if (N.land c 224 =? 224)%N then 3
  else if (N.land c 192 =? 192)%N then 2
  else 1.

(** utf8.c 20-29, [ctr_getutf8len]: [i - j] in [size_t], where [j] sums [size - 1]
    over the first [max] bytes.  Bytes beyond the buffer are [UB]. *)
Fixpoint utf8_extra (s : text) (max : nat) {struct max} : outcome Z :=
  match max with
  | O => Ok 0%Z
  | S m =>
      match s with
      | [] => UB
      | c :: s' => do j <- utf8_extra s' m; Ok (Z.of_nat (utf8size c) - 1 + j)%Z
      end
  end.
Definition getutf8len (s : text) (max : nat) : outcome Z :=
  do j <- utf8_extra s max; Ok (wrap64 (Z.of_nat max - wrap64 j)).

(** utf8.c 34-50, [getBytesUtf8]: no bounds check in the C code, so a read past the
    end of the buffer is [UB]. [i] and [bytes] are always equal. *)
Fixpoint bytes_utf8 (s : text) (start : nat) (lenu : nat) (bytes : nat) : outcome nat :=
  match lenu with
  | O => Ok bytes
  | S n => do c <- rd s (start + bytes); bytes_utf8 s start n (bytes + utf8size c)
  end.
Definition getBytesUtf8 (s : text) (start : nat) (lenu : nat) : outcome nat :=
  bytes_utf8 s start lenu 0.

(** ** Text objects

    [towned = true]: [value] points to a block of the heap allocator;
    [towned = false]: [value] points to the string literal [""]
    (world.c 380-384, base.c 1885, 1903). *)
Record txt := mkT { tval : text; towned : bool }.

(** Well-formedness of a text object: the value of a non-empty text object is a heap block *)
Definition owned_ok (t : txt) : Prop := tval t <> [] -> towned t = true.

(** base.c 1618-1627, [ctr_build_string]. *)
Definition build_string (s : text) : txt :=
  mkT s (match s with [] => false | _ => true end).

(** [ctr_heap_free] of the value of a text object: freeing the literal is UB. *)
Definition free_value (t : txt) : outcome unit :=
  if towned t then Ok tt else UB.

(** Effect of a mutating method on its receiver. [e_lost] records that a heap block
    was overwritten without being freed. *)
Record eff := mkE { e_self : txt; e_lost : bool }.

(** system.c 107-114: what [ctr_gc_sweep] does with the value of a text object that is
    thrown away: it is freed only if [vlen > 0]. The answer says whether a heap block is lost. *)
Definition sweep_txt (t : txt) : outcome bool :=
  match tval t with
  | [] => Ok (towned t)
  | _ => do _ <- free_value t; Ok false
  end.

(** ** Comparison *)

(** C library [strncmp] on buffers: compares at most [n] bytes, stops after a NUL;
    the sign is that of the difference of the first differing (unsigned) bytes. *)
Fixpoint strncmp (a b : text) (n : nat) {struct n} : outcome Z :=
  match n with
  | O => Ok 0%Z
  | S m =>
      match a, b with
      | x :: a', y :: b' =>
          if (x =? y)%N then (if (x =? 0)%N then Ok 0%Z else strncmp a' b' m)
          else Ok (Z.of_N x - Z.of_N y)%Z
      | _, _ => UB
      end
  end.

(** base.c 1707-1713, [ctr_string_eq] *)
Definition string_eq (self other : txt) : outcome bool :=
  if negb (length (tval other) =? length (tval self))%nat then Ok false
  else do r <- strncmp (tval other) (tval self) (length (tval self)); Ok (r =? 0)%Z.

(** base.c 1725-1731, [ctr_string_neq] *)
Definition string_neq (self other : txt) : outcome bool :=
  if negb (length (tval other) =? length (tval self))%nat then Ok true
  else do r <- strncmp (tval other) (tval self) (length (tval self)); Ok (negb (r =? 0)%Z).

(** base.c 2323-2336, [ctr_string_compare] *)
Definition string_compare (self other : txt) : outcome Z :=
  let maxlen := if (length (tval self) <? length (tval other))%nat
                then length (tval self) else length (tval other) in
  strncmp (tval self) (tval other) maxlen.

(** base.c 2346-2398: [<], [<=], [>], [>=] *)
Definition string_before (a b : txt) : outcome bool :=
  do r <- string_compare a b; Ok (r <? 0)%Z.
Definition string_before_or_same (a b : txt) : outcome bool :=
  do r <- string_compare a b; Ok (r <=? 0)%Z.
Definition string_after (a b : txt) : outcome bool :=
  do r <- string_compare a b; Ok (0 <? r)%Z.
Definition string_after_or_same (a b : txt) : outcome bool :=
  do r <- string_compare a b; Ok (0 <=? r)%Z.

(** ** Length, concatenation *)

(** base.c 1741-1744, [ctr_string_length] *)
Definition string_length (self : txt) : outcome Z :=
  getutf8len (tval self) (length (tval self)).

(** base.c 1754-1756, [ctr_string_bytes] *)
Definition string_bytes (self : txt) : nat := length (tval self).

(** base.c 1768-1783, [ctr_string_concat] *)
Definition string_concat (self other : txt) : outcome txt :=
  do a <- slice (tval self) 0 (length (tval self));
  do b <- slice (tval other) 0 (length (tval other));
  Ok (build_string (a ++ b)).

(** base.c 1794-1813, [ctr_string_append]: the old value is freed only if [n1 > 0]. *)
Definition string_append (self other : txt) : outcome eff :=
  let n1 := length (tval self) in
  let n2 := length (tval other) in
  if (n1 + n2 =? 0)%nat then Ok (mkE self false)
  else
    do a <- slice (tval self) 0 n1;
    do b <- slice (tval other) 0 n2;
    if (0 <? n1)%nat
    then do _ <- free_value self; Ok (mkE (mkT (a ++ b) true) false)
    else Ok (mkE (mkT (a ++ b) true) (towned self)).

(** ** Sub-texts *)

(** Replaces the value by the literal [""], base.c 1882-1887 and 1900-1905. *)
Definition clear_value (self : txt) : outcome eff :=
  if (0 <? length (tval self))%nat
  then do _ <- free_value self; Ok (mkE (mkT [] false) false)
  else Ok (mkE (mkT [] false) (towned self)).

(** base.c 1873-1913, [ctr_string_from_length]. [n] and [m] are the (whole) numbers passed;
    conversions and sums outside the range of [long] are UB. *)
Definition string_from_length (self : txt) (n m : Z) : outcome eff :=
  let len := Z.of_nat (length (tval self)) in
  if negb (in_long (n - 1) && in_long m) then UB else
  let a := (n - 1)%Z in
  let b := m in
  if (b =? 0)%Z || (len =? 0)%Z then clear_value self
  else
    if negb (in_long (a + b)) || negb (in_long (- b)) then UB else
    let '(a, b) := if (b <? 0)%Z then (a + b, Z.abs b)%Z else (a, b) in
    let a := if (a <? 0)%Z then 0%Z else a in
    let a := if (len <? a)%Z then len else a in
    if negb (in_long (a + b)) then UB else
    let b := if (len <? a + b)%Z then (len - a)%Z else b in
    let b := if (a + b <? 0)%Z then (b - a)%Z else b in
    do ua <- getBytesUtf8 (tval self) 0 (Z.to_nat a);
    do ub <- getBytesUtf8 (tval self) ua (Z.to_nat b);
    if (ub =? 0)%nat then clear_value self
    else
      do d <- slice (tval self) ua ub;
      do _ <- free_value self;
      Ok (mkE (mkT d true) false).

(** Answer of a method: the receiver itself (possibly changed) or a new text. *)
Inductive tans := Self (e : eff) | Fresh (t : txt).
Definition ans_text (r : tans) : text :=
  match r with Self e => tval (e_self e) | Fresh t => tval t end.

(** base.c 1923-1940, [ctr_string_skip] ([offset:]). *)
Definition string_skip (self : txt) (n : Z) : outcome tans :=
  let a := (n + 1)%Z in
  if (Z.of_nat (length (tval self)) <? a)%Z then Ok (Fresh (build_string []))
  else
    do tl <- getutf8len (tval self) (length (tval self));
    do e <- string_from_length self a (tl - (a - 1))%Z;
    Ok (Self e).

(** base.c 1949-1963, [ctr_string_at] ([character:]). Converting a negative number to
    [size_t] is UB; [0] wraps to the largest [size_t]. The answer [None] is Nil. *)
Definition string_at (self : txt) (n : Z) : outcome (option txt) :=
  if (n <? 0)%Z then UB else
  let a := wrap64 (n - 1) in
  do tl <- getutf8len (tval self) (length (tval self));
  if (tl <=? a)%Z then Ok None
  else
    do ua <- getBytesUtf8 (tval self) 0 (Z.to_nat a);
    do ub <- getBytesUtf8 (tval self) ua 1;
    do d <- slice (tval self) ua ub;
    Ok (Some (build_string d)).

(** base.c 2293-2309, [ctr_string_characters]: the elements pushed to the answer.
    [fuel] bounds the number of iterations; [None] is "out of fuel". *)
Fixpoint characters_loop (fuel : nat) (s : text) (i : nat) (acc : list txt)
  : option (outcome (list txt)) :=
  if (i <? length s)%nat then
    match fuel with
    | O => None
    | S f =>
        match rd s i with
        | UB => Some UB
        | Ok c =>
            match slice s i (utf8size c) with
            | UB => Some UB
            | Ok ch => characters_loop f s (i + utf8size c) (acc ++ [build_string ch])
            end
        end
    end
  else Some (Ok acc).
Definition string_characters (self : txt) : option (outcome (list txt)) :=
  characters_loop (length (tval self)) (tval self) 0 [].

(** ** Searching *)

(** world.c 336-355, [ctr_internal_memmem]; the answer is the offset from the haystack.
    [memcmp(cur, needle, nlen) == 0] *)
Definition memcmp_at (h : text) (cur : nat) (n : text) : bool :=
  text_eqb (firstn (length n) (skipn cur h)) n.
Fixpoint memmem_up (h n : text) (cur : nat) (count : nat) : option nat :=
  match count with
  | O => None
  | S c => if memcmp_at h cur n then Some cur else memmem_up h n (S cur) c
  end.
(** reverse: [cur] runs from [hlen - nlen] down to [0]; [count = cur + 1]. *)
Fixpoint memmem_down (h n : text) (count : nat) : option nat :=
  match count with
  | O => None
  | S c => if memcmp_at h c n then Some c else memmem_down h n c
  end.
Definition memmem (h n : text) (reverse : bool) : option nat :=
  if (length n =? 0)%nat then None
  else if (length h =? 0)%nat then None
  else if (length h <? length n)%nat then None
  else if reverse then memmem_down h n (length h - length n + 1)
  else memmem_up h n 0 (length h - length n + 1).

(** base.c 1973-1984 [ctr_string_index_of], 2038-2049 [ctr_string_last_index_of].
    [None] is Nil. *)
Definition string_index_of (self sub : txt) : outcome (option Z) :=
  match memmem (tval self) (tval sub) false with
  | None => Ok None
  | Some i => do u <- getutf8len (tval self) i; Ok (Some (u + 1)%Z)
  end.
Definition string_last_index_of (self sub : txt) : outcome (option Z) :=
  match memmem (tval self) (tval sub) true with
  | None => Ok None
  | Some i => do u <- getutf8len (tval self) i; Ok (Some (u + 1)%Z)
  end.
(** base.c 2165-2171, [ctr_string_contains]: Nil converts to the number 0
    (base.c [ctr_nil_to_number]). *)
Definition string_contains (self sub : txt) : outcome bool :=
  do r <- string_index_of self sub;
  Ok (match r with None => false | Some k => (0 <? k)%Z end).

(** ** Replacing *)

(** Loop of base.c 2106-2125. [src]: rest of the source ([hlen] is its length);
    [out]: bytes written to the destination so far ([dest - odest] is its length);
    [cap]: size of the destination block; [dlen] as in the code.
    Writing beyond [cap] is UB.  *)
Fixpoint replace_loop (fuel : nat) (src ndl rpl out : text) (cap dlen : Z)
  : option (outcome (text * text * Z * Z)) :=
  match memmem src ndl false with
  | None => Some (Ok (src, out, cap, dlen))
  | Some offset =>
      match fuel with
      | O => None
      | S f =>
          let nd := (dlen - Z.of_nat (length ndl) + Z.of_nat (length rpl))%Z in
          (* memory.c 196-239: the block never shrinks *)
          let cap := if (dlen <? nd)%Z then Z.max cap nd else cap in
          let out1 := out ++ firstn offset src in
          let out2 := out1 ++ rpl in
          if (cap <? Z.of_nat (length out1))%Z || (cap <? Z.of_nat (length out2))%Z then Some UB
          else replace_loop f (skipn (offset + length ndl) src) ndl rpl out2 cap nd
      end
  end.
(** base.c 2085-2131, [ctr_string_replace_with]. If the bytes written do not fill exactly
    [dlen] bytes the answer would contain uninitialised bytes, which is [UB] too. *)
Definition string_replace (self needle repl : txt) : option (outcome eff) :=
  if (length (tval needle) =? 0)%nat || (length (tval self) =? 0)%nat
  then Some (Ok (mkE self false))
  else
    match replace_loop (S (length (tval self))) (tval self) (tval needle) (tval repl) []
                       (Z.of_nat (length (tval self))) (Z.of_nat (length (tval self))) with
    | None => None
    | Some UB => Some UB
    | Some (Ok (src, out, cap, dlen)) =>
        let fin := out ++ src in
        if (cap <? Z.of_nat (length fin))%Z || negb (Z.of_nat (length fin) =? dlen)%Z then Some UB
        else Some (do _ <- free_value self; Ok (mkE (mkT fin true) false))
    end.

(** base.c 2063-2074, [ctr_string_fill_in]: the message name without its trailing
    parameter prefix is replaced by the argument. An empty message name would read
    before the buffer. *)
Definition string_fill_in (prefix : N) (self msg arg : txt) : option (outcome eff) :=
  match rev (tval msg) with
  | [] => Some UB
  | l :: _ =>
      let slot := if (l =? prefix)%N
                  then build_string (firstn (length (tval msg) - 1) (tval msg)) else msg in
      string_replace self slot arg
  end.

(** base.c 2141-2152, [ctr_string_minus] *)
Definition string_minus (self needle : txt) : outcome tans :=
  let nlen := length (tval needle) in
  let hlen := length (tval self) in
  if (hlen <? nlen)%nat then Ok (Self (mkE self false))
  else if text_eqb (firstn nlen (skipn (hlen - nlen) (tval self))) (tval needle)
  then Ok (Fresh (build_string (firstn (hlen - nlen) (tval self))))
  else Ok (Self (mkE self false)).

(** ** Trimming and case *)

(** [isspace] in the C locale (the interpreter never calls [setlocale]). *)
Definition isspace (c : N) : bool := ((9 <=? c) && (c <=? 13) || (c =? 32))%N.

(** base.c 2188: [while(i < len && isspace(str[i])) i++] on the rest of the text. *)
Fixpoint trim_begin (s : text) (i : nat) : nat :=
  match s with
  | [] => i
  | c :: s' => if isspace c then trim_begin s' (S i) else i
  end.
(** base.c 2192: [while(i > begin && isspace(str[i])) i--]; [k = i - begin]. *)
Fixpoint trim_end (s : text) (begin k : nat) : outcome nat :=
  match k with
  | O => Ok begin
  | S k' => do c <- rd s (begin + k); if isspace c then trim_end s begin k' else Ok (begin + k)
  end.
(** base.c 2181-2201, [ctr_string_trim] *)
Definition string_trim (self : txt) : outcome tans :=
  let str := tval self in
  let len := length str in
  if (len =? 0)%nat then Ok (Fresh (build_string []))
  else
    let begin := trim_begin str 0 in
    if (begin =? len)%nat then Ok (Fresh (build_string []))
    else
      do i <- trim_end str begin (len - 1 - begin);
      do d <- slice str begin (i + 1 - begin);
      do _ <- free_value self;
      Ok (Self (mkE (mkT d true) false)).

(** [toupper]/[tolower] in the C locale. *)
Definition toupper (c : N) : N := (if (97 <=? c) && (c <=? 122) then c - 32 else c)%N.
Definition tolower (c : N) : N := (if (65 <=? c) && (c <=? 90) then c + 32 else c)%N.
(** base.c 1993-2005 [ctr_string_to_upper], 2016-2028 [ctr_string_to_lower]:
    the old value is freed unconditionally. *)
Definition string_to_upper (self : txt) : outcome eff :=
  do _ <- free_value self; Ok (mkE (mkT (map toupper (tval self)) true) false).
Definition string_to_lower (self : txt) : outcome eff :=
  do _ <- free_value self; Ok (mkE (mkT (map tolower (tval self)) true) false).

(** ** Splitting *)

(** Loop of base.c 2258-2276. [buf] is [buffer[0..j-1]] in order, [parts] the list so far.
    [buffer] has [len] bytes and [j <= i], so the write [buffer[j]] is in bounds. *)
Fixpoint split_loop (rest dstr buf : text) (k : nat) (parts : list txt)
  : outcome (list txt * text) :=
  match rest with
  | [] => Ok (parts, buf)
  | c :: rest' =>
      let j := length buf in
      let buf' := buf ++ [c] in
      let hit := match dstr with
                 | [] => Ok false
                 | _ => do d <- rd dstr k; Ok (c =? d)%N
                 end in
      do h <- hit;
      if h then
        if (length dstr <=? S k)%nat then
          if (j + 1 <? length dstr)%nat then UB   (* j+1-dlen negative *)
          else split_loop rest' dstr [] 0
                 (parts ++ [build_string (firstn (j + 1 - length dstr) buf')])
        else split_loop rest' dstr buf' (S k) parts
      else split_loop rest' dstr buf' 0 parts
  end.
(** base.c 2246-2283, [ctr_string_split] *)
Definition string_split (self delim : txt) : outcome (list txt) :=
  do (parts, buf) <- split_loop (tval self) (tval delim) [] 0 [];
  Ok (parts ++ [build_string buf]).

(** base.c 2233-2236, [ctr_string_to_boolean] *)
Definition string_to_boolean (self : txt) : bool := negb (length (tval self) =? 0)%nat.

(** ** Histories: a text in a variable to which mutating messages are sent one after
    the other. [None]: out of fuel (excluded by the theorems). The boolean collects lost blocks. *)
Inductive top :=
| OAppend (s : text) | OUpper | OLower | OReplace (p r : text) | OTrim.
Definition tstep (t : txt) (o : top) : option (outcome eff) :=
  match o with
  | OAppend s => Some (string_append t (build_string s))
  | OUpper => Some (string_to_upper t)
  | OLower => Some (string_to_lower t)
  | OReplace p r => string_replace t (build_string p) (build_string r)
  | OTrim => Some (match string_trim t with
                   | UB => UB
                   | Ok (Self e) => Ok e
                   | Ok (Fresh _) => Ok (mkE t false)
                   end)
  end.
Fixpoint thist (t : txt) (os : list top) : option (outcome eff) :=
  match os with
  | [] => Some (Ok (mkE t false))
  | o :: os' =>
      match tstep t o with
      | None => None
      | Some UB => Some UB
      | Some (Ok e) =>
          match thist (e_self e) os' with
          | Some (Ok e') => Some (Ok (mkE (e_self e') (e_lost e || e_lost e')))
          | r => r
          end
      end
  end.
