(** Decision procedures for the conditions on languages and names. *)
From Coq Require Import List String NArith Bool Lia.
From Verif Require Import Common Txt TextSpec LexModel LexSpec ParseModel ParseSpec Dicts LangDicts RegTable RegModel RegSpec.
Import ListNotations.
Open Scope nat_scope.

Definition inb (x : N) (l : list N) : bool := existsb (N.eqb x) l.
Lemma inb_not x l : inb x l = false -> ~ In x l.
Proof.
  intros H I. assert (T : inb x l = true) by (apply existsb_exists; exists x; split; [auto|apply N.eqb_refl]). congruence.
Qed.
Definition digitb (c : N) : bool := ((48 <=? c) && (c <=? 57))%N.
Lemma digitb_not c : digitb c = false -> ~ digit c.
Proof. unfold digitb, digit. intros H [A B]. apply N.leb_le in A, B. rewrite A, B in H. discriminate. Qed.
Definition contb (b : N) : bool := ((128 <=? b) && (b <=? 191))%N.
Lemma contb_ok b : contb b = true -> cont b.
Proof. unfold contb, cont. intros H. apply andb_prop in H. destruct H as (A & B). apply N.leb_le in A, B. auto. Qed.
(** The characters of a text. *)
Fixpoint split_chars (fuel : nat) (t : text) : option (list text) :=
  match fuel with
  | O => None
  | S n =>
      let more k r := match split_chars n r with Some cs => Some (k :: cs) | None => None end in
      match t with
      | [] => Some []
      | b :: r =>
          if (b <? 128)%N then more [b] r
          else if ((192 <=? b) && (b <=? 223))%N then
            match r with c1 :: r => if contb c1 then more [b; c1] r else None | _ => None end
          else if ((224 <=? b) && (b <=? 239))%N then
            match r with c1 :: c2 :: r => if contb c1 && contb c2 then more [b; c1; c2] r else None | _ => None end
          else if ((240 <=? b) && (b <=? 247))%N then
            match r with
            | c1 :: c2 :: c3 :: r => if contb c1 && contb c2 && contb c3 then more [b; c1; c2; c3] r else None
            | _ => None
            end
          else None
      end
  end.
Definition chars (t : text) : option (list text) := split_chars (S (List.length t)) t.

Definition plain_firstb (w : text) : bool :=
  match w with c :: _ => negb (inb c [32; 9; 13; 10; 35; 40; 41; 123; 125]%N) | [] => false end.
Definition no_digitb (w : text) : bool :=
  match w with c :: _ => negb (digitb c) && negb (c =? 45)%N | [] => true end.
Definition nonempty (w : text) : bool := match w with [] => false | _ => true end.
Definition lang_okb (d : dict) : bool :=
  forallb plain_firstb [d_eol d; d_chain d; d_assign d; d_return d; d_qo d; [d_prefix d]]
  && apartb (d_chain d) (d_eol d)
  && apartb (d_assign d) (d_eol d) && apartb (d_assign d) (d_chain d)
  && apartb [d_prefix d] (d_eol d) && apartb [d_prefix d] (d_chain d)
  && forallb (apartb (d_return d)) [d_eol d; d_chain d; d_assign d; [58; 61]%N; [d_prefix d]]
  && forallb (apartb (d_qo d)) [d_eol d; d_chain d; d_assign d; [58; 61]%N; [d_prefix d]; d_return d]
  && forallb no_digitb [d_eol d; d_chain d; d_assign d; d_return d; d_qo d; [d_prefix d]; d_dec d; d_tho d]
  && ((d_prefix d =? 58)%N || text_eqb (d_eol d) [58]%N)
  && nonempty (d_dec d) && nonempty (d_tho d) && apartb (d_tho d) (d_dec d)
  && (text_eqb (d_eol d) (d_dec d) || apartb (d_eol d) (d_dec d)).
Definition words_okb (d : dict) : bool :=
  forallb nonempty [d_eol d; d_chain d; d_assign d; d_return d; d_qo d] && (2 <=? List.length (d_assign d)).
Definition self_escaped (c : N) : bool := negb (inb c [110; 114; 116; 118; 98; 97; 102; 48]%N).
Definition marks_okb (d : dict) : bool :=
  nonempty (d_qo d) && nonempty (d_qc d) && (List.length (d_qo d) <=? 10) && (List.length (d_qc d) <=? 10)
  && negb (inb 92%N (d_qo d)) && negb (inb 0%N (d_qo d)) && negb (inb 92%N (d_qc d)) && negb (inb 0%N (d_qc d))
  && apartb (d_qo d) (d_qc d)
  && apartb (d_qo d) newline_sign && apartb (d_qo d) tab_sign && apartb (d_qc d) newline_sign && apartb (d_qc d) tab_sign
  && self_escaped (hd 0%N (d_qo d)) && self_escaped (hd 0%N (d_qc d)).

(** The word [v] can be written before the byte [c]. *)
Fixpoint suffixes (v : text) : list text := match v with [] => [] | _ :: r => v :: suffixes r end.
Definition word_okb (d : dict) (v : text) (c : N) : bool :=
  nonempty v && (List.length v <=? 255) && negb (inb 35%N v) && negb (inb (hd 0%N v) [123; 125]%N)
  && negb (digitb (hd 0%N v))
  && (negb (hd 0%N v =? 45)%N || negb (digitb (hd c (tl v))))
  && apartb (d_return d ++ [32%N]) (v ++ [c])
  && forallb (fun q => forallb (fun w => apartb w (q ++ [c])) [d_eol d; d_qo d; d_assign d; d_chain d]
                       && negb (inb (hd 0%N q) [32; 9; 13; 10; 40; 41; d_prefix d]%N)) (suffixes v).
(** The words of a name, and whether the name can be written with [n] arguments. *)
Fixpoint split_words (p : N) (w : text) (name : text) : list text :=
  match name with
  | [] => match w with [] => [] | _ => [w] end
  | c :: r => if (c =? p)%N then w :: split_words p [] r else split_words p (w ++ [c]) r
  end.
Definition join_words (p : N) (ws : list text) : text := concat (map (fun w => (w ++ [p])%list) ws).
Definition name_okb (d : dict) (name : text) (n : nat) : bool :=
  let p := d_prefix d in
  match chars name with
  | None => false
  | Some cs =>
      if characters name =? 1 then (n =? 1) && (List.length cs =? 1) && word_okb d name 32%N
      else if n =? 0 then (List.length (filter (N.eqb p) name) =? 0) && negb (List.length cs =? 1) && word_okb d name 32%N
      else
        let ws := split_words p [] name in
        (List.length ws =? n) && text_eqb name (join_words p ws) && (List.length name <=? 255)
        && forallb (fun w => word_okb d w p) ws
        && match ws with w :: _ => match chars w with Some _ => true | None => false end | [] => false end
        && apartb (d_assign d) [p; 32]%N && apartb [58; 61]%N [p; 32]%N
  end.

Fixpoint nodupb (l : list text) : bool :=
  match l with [] => true | a :: r => negb (existsb (text_eqb a) r) && nodupb r end.
(** Built-in names of one language: no object has two methods of the same name, no name of an object
    hides another message of the objects it is derived from, no two objects have the same name. *)
Definition key_eqb (a b : key) : bool :=
  match a, b with
  | Dict x, Dict y | Lit x, Lit y | LitPrefix x, LitPrefix y => String.eqb x y
  | _, _ => false
  end.
Definition std_eqb (a b : std) : bool := if std_eq_dec a b then true else false.
Definition ancestors (o : std) : list std :=
  match link o with None => [] | Some p => p :: match link p with None => [] | Some q => [q] end end.
Definition all_std : list std :=
  [OObject; ONil; OBool; ONumber; OString; OBlock; OArray; OMap; OConsole; OFile; OCommand; OClock; OSlurp;
   OShellCommand; OPath; OBoolTrue; OBoolFalse].
Definition table (d : dict) (ws : list string) : list (std * key * text) :=
  map (fun r => (fst (fst r), snd (fst r), key_text d ws (snd (fst r)))) registrations.
Definition names_of (tb : list (std * key * text)) (o : std) : list text :=
  map snd (filter (fun r => std_eqb (fst (fst r)) o) tb).
Definition world_okb (d : dict) (ws : list string) : bool :=
  let tb := table d ws in
  let gs := map (fun g => key_text d ws (fst g)) globals in
  forallb (fun o => nodupb (names_of tb o)) all_std
  && forallb (fun r =>
       forallb (fun a => if existsb (std_eqb (fst (fst a))) (ancestors (fst (fst r)))
                         then key_eqb (snd (fst a)) (snd (fst r)) || negb (text_eqb (snd a) (snd r)) else true) tb) tb
  && nodupb gs
  && forallb (fun g => word_okb d g 32%N && negb (text_eqb g (d_my d)) && negb (text_eqb g (d_var d)) && negb (text_eqb g [62; 62]%N)) gs.

(** Every language. *)
Definition each_language (check : string -> dict -> list string -> bool) : bool :=
  forallb (fun lw => forallb (fun ld => if text_eqb (fst ld) (lit (fst lw)) then check (fst lw) (snd ld) (snd lw) else true) languages) dictionaries.
(** i18n/en/dictionary.h *)
Definition english : list string :=
  match find (fun lw => String.eqb (fst lw) "en") dictionaries with Some lw => snd lw | None => [] end.
Definition exceptions : list (string * key) := [
  ("az", Dict "SPLICE"); ("uz", Dict "SPLICE"); ("fa", Dict "FILL_WITH"); ("or", Dict "WAIT_FOR_PASSW"); ("ur", Dict "WAIT_FOR_PASSW");
  ("ku", Dict "RESPOND_TO_AND_AND_AND"); ("ny", Dict "RESPOND_TO_AND_AND_AND"); ("sn", Dict "RESPOND_TO_AND_AND_AND");
  ("xh", Dict "RESPOND_TO_AND_AND_AND"); ("yo", Dict "RESPOND_TO_AND_AND_AND");
  ("sw", Dict "RESPOND_TO_AND_AND"); ("sw", Dict "RESPOND_TO_AND_AND_AND");
  ("zu", Dict "RESPOND_TO_AND_AND"); ("zu", Dict "RESPOND_TO_AND_AND_AND")]%string.
Definition exceptional (l : string) (k : key) : bool :=
  existsb (fun x => String.eqb (fst x) l && key_eqb (snd x) k) exceptions.
Definition sendable (l : string) (d : dict) (ws : list string) : bool :=
  forallb (fun r => exceptional l (snd (fst r)) ||
    name_okb d (key_text d ws (snd (fst r))) (arguments 58%N (key_text dict_en english (snd (fst r))))) registrations.
