(** C125: images, fonts and sounds, and how they are released. *)
From Coq Require Import String.
From Verif Require Import Common Fuel Txt SlotSpec SlotModel SlotProofs.
Local Open Scope string_scope.
Local Open Scope list_scope.
Local Open Scope nat_scope.

(** Whatever a program does with images, fonts and sounds and whatever the collector takes (but neither a visible picture nor the player):
    every image shows its own file with the text last written on it in its own font, every sound plays its own file, nothing freed is
    used and nothing is freed twice. *)
Theorem C125_history_partial : forall load l out, wanted load l (mkStage [] None, mkMade 0 0 0) = Some out ->
  exists m, deeds load l empty = Ret (out, m).
Proof. intros load l out W. exact (deeds_ok load l empty _ _ out inv_empty W). Qed.
Print Assumptions C125_history_partial.
(** Odd files are good; file 4 is broken, the others are missing. *)
Definition disc (f : nat) : content := if Nat.odd f then Good else if f =? 4 then Broken else Missing.
(** Two images share a font; the font gets another file, is used again, then is collected: writing goes on only for the image that kept
    the old font.  A hidden image is collected, a sound that could not be loaded is silent. *)
Example C125_history_case : exists m,
  deeds disc [NewImage; NewImage; NewFont; Source 0 1; Source 1 3; FontSource 2 5; UseFont 0 2; UseFont 1 2; WriteOn 0 (lit "a"); FontSource 2 7; WriteOn 0 (lit "b"); UseFont 1 2;
              WriteOn 1 (lit "c"); Frame; Collect 2; WriteOn 0 (lit "d"); NewImage; Source 3 9; Visible 1 false; Collect 1; NewSound 11; NewMusic 2; Play 4; Play 5; Control 0; Frame; Source 0 2; Frame; WriteOn 3 (lit "x")] empty
  = Ret ([Made 0; Made 1; Made 2; Answered; Answered; Answered; Answered; Answered; Answered; Answered; Answered; Answered; Answered;
          Seen [Lettered 1 5 (lit "b"); Lettered 3 7 (lit "c")]; Answered; Answered; Made 3; Answered; Answered; Answered; Made 4; Error; Heard 11; Silent; Answered;
          Seen [Lettered 1 5 (lit "d"); Bare 9]; Error; Seen [Lettered 1 5 (lit "d"); Bare 9]; Fatal], m).
Proof. apply C125_history_partial. vm_compute. reflexivity. Qed.
(** The limits: the eleventh font and the fifty-first sound are Nil. *)
Example C125_limits : exists m, deeds disc (repeat NewFont 11 ++ repeat (NewSound 1) 51) empty = Ret (map Made (seq 0 62), m).
Proof. apply C125_history_partial. vm_compute. reflexivity. Qed.

(** The hundred and first image lies outside the table. *)
Theorem C125_images_refuted : exists l, l = repeat NewImage 101 /\ deeds disc l empty = Bad.
Proof. eexists. split; [reflexivity|]. vm_compute. reflexivity. Qed.
Print Assumptions C125_images_refuted.
(** So does the fifty-first piece of music, though the fifty-first sound is refused. *)
Theorem C125_music_refuted : exists l, l = repeat (NewMusic 1) 51 /\ deeds disc l empty = Bad.
Proof. eexists. split; [reflexivity|]. vm_compute. reflexivity. Qed.
Print Assumptions C125_music_refuted.
(** An image that is shown but that no variable holds is collected; the next frame draws a destroyed texture. *)
Theorem C125_shown_refuted : exists l, l = [NewImage; Source 0 1; Frame; Collect 0; Frame] /\ deeds disc l empty = Bad.
Proof. eexists. split; [reflexivity|]. vm_compute. reflexivity. Qed.
Print Assumptions C125_shown_refuted.
(** The player is not kept from the collector either. *)
Theorem C125_player_refuted : exists l, l = [NewImage; Control 0; Frame; Collect 0; Frame] /\ deeds disc l empty = Bad.
Proof. eexists. split; [reflexivity|]. vm_compute. reflexivity. Qed.
Print Assumptions C125_player_refuted.
(** The eleventh font is Nil; an image that is told to use it reads through a null pointer. *)
Theorem C125_eleven_fonts_refuted : exists l, l = NewImage :: repeat NewFont 11 ++ [UseFont 0 11] /\ deeds disc l empty = Bad.
Proof. eexists. split; [reflexivity|]. vm_compute. reflexivity. Qed.
Print Assumptions C125_eleven_fonts_refuted.
(** Loading again and writing leave the old things behind: all objects are collected, SDL still keeps something. *)
Theorem C125_leak_refuted : exists l m out, l = [NewImage; Source 0 1; Source 0 3; Visible 0 false; Collect 0] /\ deeds disc l empty = Ret (out, m) /\
  Forall (fun e => snd e = true) (objs m) /\ hp m = [Some (Surface 1); Some (Texture (Bare 1)); None; None].
Proof. do 3 eexists. split; [reflexivity|]. split; [vm_compute; reflexivity|]. split; [repeat constructor|reflexivity]. Qed.
Print Assumptions C125_leak_refuted.
