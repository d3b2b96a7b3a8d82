(** The dictionaries of the media plugin: plugins/media/dicts.sh, which makes them with the option -g of
    citrine (GenModel), and the headers it reads (i18n/*/dictionary.h, plugins/media/i18n/*/media.h). *)
From Coq Require Import List String NArith Bool.
From Verif Require Import Common Fuel Txt LexModel LangDicts RegTable RegModel HdrDicts TransModel GenSpec GenModel GenData MedTable.
Import ListNotations.
Open Scope nat_scope.

(** plugins/media/i18n/*/media.h 1-83: the rows of the header of the language [l] *)
Definition mmodifier (l m : string) : option text :=
  match find (fun x => String.eqb (fst (fst x)) l && String.eqb (snd (fst x)) m) mmodifiers with
  | Some x => Some (lit (snd x)) | None => None
  end.
Definition mrows (l : string) (ms : list string) : list row :=
  map (fun p => mkRow (lit (String.append "CTR_DICT_" (fst p))) (lit (snd p)) (mmodifier l (fst p))) (combine mmacros ms).

(** plugins/media/dicts.sh 10-11: what the two calls print, one behind the other.  [f], [g]: the English header
    and the other one; [mf], [mg]: those of the plugin. *)
Definition dicts_sh (f g mf mg : text) : res text :=
  let! r := generate_dicts (Some (lit "CTR_DICT_RUN,CTR_DICT_END")) f g in
  let! r2 := generate_dicts (Some (lit "CTR_DICT_ON")) mf mg in
  Ret (snd r ++ snd r2).
