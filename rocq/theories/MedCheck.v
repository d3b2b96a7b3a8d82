(** Decision procedures for the words of the media plugin. *)
From Coq Require Import List String NArith Bool.
From Verif Require Import Common Txt TextSpec LexModel MapSpec Dicts LangDicts RegTable RegModel RegSpec RegCheck MedTable MedSpec MedModel.
Import ListNotations.
Open Scope nat_scope.

Definition mobjs : list mobj :=
  [MBlob; MColor; MPoint; MLine; MMedia; MImage; MFont; MAudio; MSound; MMusic; MNetwork; MPackage; MForeign].
Definition mobj_eqb (a b : mobj) : bool := if mobj_eq_dec a b then true else false.
Definition mkey_eqb (a b : mkey) : bool :=
  match a, b with Core x, Core y => key_eqb x y | Plug x, Plug y => String.eqb x y | _, _ => false end.
Definition thing_eqb (a b : thing) : bool :=
  match a, b with OfCore x, OfCore y => std_eqb x y | OfPlugin x, OfPlugin y => mobj_eqb x y | _, _ => false end.
(** The methods of an object, the last one registered first. *)
Definition mown (d : dict) (ws ms : list string) (o : mobj) : list (text * string) :=
  rev (flat_map (fun r => if mobj_eq_dec (fst (fst r)) o then [(mkey_text d ws ms (snd (fst r)), snd r)] else []) mregistrations).
Definition mnames (d : dict) (ws ms : list string) : list (text * thing) :=
  rev (map (fun g => (mkey_text d ws ms (fst g), OfPlugin (snd g))) mglobals) ++
  rev (map (fun g => (key_text d ws (fst g), OfCore (snd g))) globals).
(** The message hidden by another one of the same name, and those that cannot be written with the arguments
    of their English name: without the sign for a second argument (Hindi), with a space in it (Persian), of a
    single character (Italian). *)
Definition hidden : list (string * mkey) := [("es", Plug "SOURCE_SET")]%string.
Definition unsendable : list (string * mkey) :=
  [("hi", Plug "FX"); ("hi", Plug "MOVE_TO_XY_SET"); ("fa", Plug "FREE_STRUCT"); ("fa", Plug "SELECTION"); ("fa", Plug "FREEZE_SET");
   ("it", Plug "TO")]%string.
Definition listed (xs : list (string * mkey)) (l : string) (k : mkey) : bool :=
  existsb (fun x => String.eqb (fst x) l && mkey_eqb (snd x) k) xs.
Definition found {V} (eqb : V -> V -> bool) (l : list (text * V)) (t : text) (v : V) : bool :=
  match lookup l t with Some u => eqb u v | None => false end.
Definition absent {V} (l : list (text * V)) (t : text) : bool := match lookup l t with Some _ => false | None => true end.
Definition has (o : mobj) (k : mkey) : bool :=
  existsb (fun r => mobj_eqb (fst (fst r)) o && mkey_eqb (snd (fst r)) k) mregistrations.
Definition media_okb (l : string) (d : dict) (ws ms : list string) : bool :=
  let owns := map (fun o => (o, mown d ws ms o)) mobjs in
  forallb (fun q => forallb (fun r => if mobj_eqb (fst (fst r)) (fst q)
       then listed hidden l (snd (fst r)) || found String.eqb (snd q) (mkey_text d ws ms (snd (fst r))) (snd r)
       else true) mregistrations) owns
  && forallb (fun q => forallb (fun r => if thing_eqb (derived (fst q)) (OfPlugin (fst (fst r)))
       then has (fst q) (snd (fst r)) || absent (snd q) (mkey_text d ws ms (snd (fst r))) else true) mregistrations) owns
  && forallb (fun q => forallb (fun r => if std_eqb (fst (fst r)) OObject
       then has (fst q) (Core (snd (fst r))) || absent (snd q) (key_text d ws (snd (fst r))) else true) registrations) owns
  && (let ns := mnames d ws ms in
      forallb (fun g => found thing_eqb ns (key_text d ws (fst g)) (OfCore (snd g))) globals
      && forallb (fun g => found thing_eqb ns (mkey_text d ws ms (fst g)) (OfPlugin (snd g))) mglobals).
Definition names_okb (l : string) (d : dict) (ws ms : list string) : bool :=
  forallb (fun g => let t := mkey_text d ws ms (fst g) in
    word_okb d t 32%N && negb (text_eqb t (d_my d)) && negb (text_eqb t (d_var d)) && negb (text_eqb t [62; 62]%N)) mglobals.
(** plugins/media/i18n/en/media.h *)
Definition menglish : list string :=
  match find (fun lw => String.eqb (fst lw) "en") mdictionaries with Some lw => snd lw | None => [] end.
Definition english_arguments (k : mkey) : nat := arguments 58%N (mkey_text dict_en english menglish k).
Definition msendable (l : string) (d : dict) (ws ms : list string) : bool :=
  forallb (fun r => listed unsendable l (snd (fst r)) ||
    name_okb d (mkey_text d ws ms (snd (fst r))) (english_arguments (snd (fst r)))) mregistrations.
(** Events: all different, each with its English number of arguments, and no other message of Media or Image. *)
Definition events_okb (l : string) (d : dict) (ws ms : list string) : bool :=
  nodupb (map (fun e => mkey_text d ws ms (Plug e)) mevents)
  && forallb (fun e => name_okb d (mkey_text d ws ms (Plug e)) (english_arguments (Plug e))) mevents
  && forallb (fun e => let t := mkey_text d ws ms (Plug e) in
       forallb (fun r => if mobj_eqb (fst (fst r)) MMedia || mobj_eqb (fst (fst r)) MImage
         then mkey_eqb (snd (fst r)) (Plug e) || negb (text_eqb (mkey_text d ws ms (snd (fst r))) t) else true) mregistrations
       && forallb (fun r => if std_eqb (fst (fst r)) OObject then negb (text_eqb (key_text d ws (snd (fst r))) t) else true) registrations)
     mevents.
(** Every language of the plugin. *)
Definition each_media (check : string -> dict -> list string -> list string -> bool) : bool :=
  forallb (fun lm => forallb (fun lw => if String.eqb (fst lw) (fst lm)
    then forallb (fun ld => if text_eqb (fst ld) (lit (fst lm)) then check (fst lm) (snd ld) (snd lw) (snd lm) else true) languages
    else true) dictionaries) mdictionaries.
