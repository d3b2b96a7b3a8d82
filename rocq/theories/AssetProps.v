(** C131 and C132: program files, and which files can be a canvas. *)
From Coq Require Import List.
From Verif Require Import Common Fuel AssetSpec AssetModel AssetProofs.
Import ListNotations.
Local Open Scope nat_scope.

(** ** C131 *)
(** The full claim: [use: path] runs the program in the file, all of it and nothing else, however the system hands out its bytes, or it is
    an error.  It holds unless reading fails on the way. *)
Theorem C131_whole_partial short file : (forall i, 1 <= short i) ->
  media_include short (length file + 1) (Some file) = Ret (Runs file 0%N).
Proof. exact (include_whole short file). Qed.
Print Assumptions C131_whole_partial.
(** Whatever the reads answer, no byte is written outside the memory, the byte behind the program is 0, and what runs is a beginning of the file. *)
Theorem C131_beginning short file : exists m, media_include short (length file + 1) (Some file) = Ret (Runs (firstn m file) 0%N).
Proof. exact (include_some short file). Qed.
Print Assumptions C131_beginning.
Theorem C131_missing short fuel : media_include short fuel None = Ret NoFile.
Proof. reflexivity. Qed.
Print Assumptions C131_missing.
Definition long_program : text := repeat 65%N 1030.
Example C131_case : media_include (fun _ => 512) 1031 (Some long_program) = Ret (Runs long_program 0%N) /\
  media_include (fun i => if Nat.even i then 1 else 300) 1031 (Some long_program) = Ret (Runs long_program 0%N) /\
  media_include (fun _ => 512) 1 (Some []) = Ret (Runs [] 0%N) /\
  media_include (fun _ => 512) 513 (Some (repeat 66%N 512)) = Ret (Runs (repeat 66%N 512) 0%N).
Proof. vm_compute. auto. Qed.
(** An error of reading is taken for the end of the file: half a program runs. *)
Theorem C131_error_refuted : exists short file p, media_include short (length file + 1) (Some file) = Ret (Runs p 0%N) /\ p <> file.
Proof. exists (fun i => if i =? 1 then 0 else 512), (repeat 65%N 600), (repeat 65%N 512). split; [vm_compute; reflexivity|vm_compute; discriminate]. Qed.
Print Assumptions C131_error_refuted.

(** ** C132 *)
(** The full claim: [screen:] takes PNG and JPEG files as canvas and refuses every other file.  The first and, for files that start like
    neither, the last part hold. *)
Theorem C132_png_partial f : is_png f -> determine_filetype (Some f) = Ok 30 /\ canvas_accepted (Some f) = Ok true.
Proof. exact (fun H => conj (png_accepted f H) (f_equal (fun o => do t <- o; Ok (negb (t =? 0))) (png_accepted f H))). Qed.
Print Assumptions C132_png_partial.
Theorem C132_other_partial f : ~ starts_with png_signature f -> ~ starts_with [255; 216]%N f -> canvas_accepted (Some f) = Ok false.
Proof. exact (other_refused f). Qed.
Print Assumptions C132_other_partial.
(** Exactly which files are taken for which kind: the mark, then nothing or a byte 0. *)
Theorem C132_exactly f : exists t, determine_filetype (Some f) = Ok t /\
  (t = 20 <-> f = [255; 216]%N \/ starts_with [255; 216; 0]%N f) /\
  (t = 30 <-> f = png_signature \/ starts_with (png_signature ++ [0%N]) f) /\ (t = 20 \/ t = 30 \/ t = 0).
Proof. exact (filetype_spec f). Qed.
Print Assumptions C132_exactly.
Theorem C132_missing : canvas_accepted None = Ok false.
Proof. reflexivity. Qed.
Print Assumptions C132_missing.
Example C132_case : canvas_accepted (Some (png_signature ++ [0; 0; 0; 13; 73; 72; 68; 82; 0; 0; 1; 0; 0; 0; 1; 0; 8; 6]%N)) = Ok true /\
  canvas_accepted (Some [71; 73; 70; 56]%N) = Ok false /\ canvas_accepted (Some []) = Ok false.
Proof. vm_compute. auto. Qed.
(** No JPEG file at all is accepted: the mark is compared as a text, and the third byte is never 0. *)
Theorem C132_jpeg_never f : is_jpeg f -> canvas_accepted (Some f) = Ok false.
Proof. exact (jpeg_refused f). Qed.
Print Assumptions C132_jpeg_never.
Theorem C132_jpeg_refuted : exists f, is_jpeg f /\ canvas_accepted (Some f) = Ok false.
Proof. exists [255; 216; 255; 224; 0; 16; 74; 70; 73; 70; 0]%N. split; [exists [224; 0; 16; 74; 70; 73; 70; 0]%N|vm_compute]; reflexivity. Qed.
Print Assumptions C132_jpeg_refuted.
(** Files that are no pictures pass: the signature alone, and two bytes that no JPEG file consists of. *)
Theorem C132_empty_refuted : exists f g, canvas_accepted (Some f) = Ok true /\ ~ is_png f /\ ~ is_jpeg f /\ canvas_accepted (Some g) = Ok true /\ ~ is_png g /\ ~ is_jpeg g.
Proof.
  exists png_signature, [255; 216]%N. repeat split; try reflexivity; intros (r & E); cbn in E; discriminate.
Qed.
Print Assumptions C132_empty_refuted.
