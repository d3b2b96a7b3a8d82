(** Proofs about program files and kinds of picture files. *)
From Coq Require Import Lia List Bool Arith NArith.
From Verif Require Import Common Fuel AssetSpec AssetModel.
Import ListNotations.
Local Open Scope nat_scope.

Local Opaque chunk.
Lemma chunk_pos : 2 <= chunk. Proof. Transparent chunk. unfold chunk. lia. Opaque chunk. Qed.

(** the block holds what was read so far, then zeros *)
Definition holds (b : text) (done : text) : Prop := exists k, b = done ++ repeat 0%N k.
Lemma grow_holds b done n : holds b done -> holds (grow b n) done /\ n <= length (grow b n).
Proof.
  intros (k & ->). unfold grow. split; [|rewrite app_length, repeat_length; lia].
  exists (k + (n - length (done ++ repeat 0%N k))). now rewrite <- app_assoc, repeat_app.
Qed.
Lemma skipn_repeat {A} (x : A) n k : skipn n (repeat x k) = repeat x (k - n).
Proof. revert k. induction n; intros [|k]; cbn; auto. Qed.
Lemma read_holds b done c a rest : holds b done -> length done + c <= length b ->
  let n := Nat.min (Nat.min c a) (length rest) in
  exists b', rw_read b (length done) c a rest = Ok (b', skipn n rest, n) /\ holds b' (done ++ firstn n rest) /\ length b' = length b.
Proof.
  intros (k & ->) L n. unfold rw_read. fold n. destruct (Nat.leb_spec (length done + c) (length (done ++ repeat 0%N k))); [|lia].
  rewrite app_length, repeat_length in *. eexists. split; [reflexivity|].
  rewrite firstn_app, Nat.sub_diag, firstn_all. cbn [firstn]. rewrite app_nil_r.
  rewrite skipn_app. rewrite (skipn_all2 done) by lia. cbn [app]. rewrite skipn_repeat.
  assert (N : length (firstn n rest) = n) by (rewrite firstn_length; lia). split.
  - exists (k - (length done + n - length done)). now rewrite app_assoc.
  - rewrite !app_length, repeat_length, N. lia.
Qed.
Lemma loop_reads short : (forall i, 1 <= short i) -> forall fuel rest i b done got,
  length rest < fuel -> holds b done -> (got = 0 -> rest = [] /\ length done + 1 < length b) ->
  exists b', read_loop short fuel i b (length done) got rest = Ret (b', length (done ++ rest)) /\ holds b' (done ++ rest) /\
    length (done ++ rest) + 1 < length b'.
Proof.
  intros SH. induction fuel as [|k IH]; intros rest i b done got F H G; [lia|].
  destruct got as [|g].
  - destruct (G eq_refl) as [-> L]. rewrite app_nil_r. exists b. cbn [read_loop]. auto.
  - cbn [read_loop]. pose proof chunk_pos as CP.
    destruct (grow_holds b done (length done + chunk + 1) H) as [GH GL].
    destruct (read_holds _ done chunk (short i) rest GH ltac:(lia)) as (b' & -> & H' & L').
    set (n := Nat.min (Nat.min chunk (short i)) (length rest)) in *. pose proof (SH i) as SI.
    replace (length done + n) with (length (done ++ firstn n rest)) by (rewrite app_length, firstn_length; lia).
    assert (E : done ++ rest = (done ++ firstn n rest) ++ skipn n rest) by (rewrite <- app_assoc, firstn_skipn; reflexivity).
    rewrite E. destruct (Nat.eq_dec (length rest) 0) as [Z|NZ].
    + assert (n = 0) by lia. destruct rest; [|discriminate]. rewrite firstn_nil, skipn_nil, !app_nil_r in *. exists b'. rewrite H0.
      destruct k; cbn [read_loop]; (split; [reflexivity|]); (split; [exact H'|lia]).
    + apply IH; auto.
      * rewrite skipn_length. lia.
      * lia.
Qed.
Lemma program_read short file : (forall i, 1 <= short i) ->
  exists b, read_program short (length file + 1) file = Ret (b, length file) /\ holds b file /\ length file + 1 < length b.
Proof.
  intros SH. pose proof chunk_pos as CP. unfold read_program.
  assert (H0 : holds (repeat 0%N chunk) []) by (exists chunk; reflexivity).
  destruct (read_holds _ [] chunk (short 0) file H0) as (b & E & H & L); [rewrite repeat_length; cbn; lia|].
  cbn [length] in E. rewrite E. set (n := Nat.min (Nat.min chunk (short 0)) (length file)) in *. rewrite repeat_length in L. cbn [app] in H.
  pose proof (SH 0) as S0.
  destruct (loop_reads short SH (length file + 1) (skipn n file) 1 b (firstn n file) n) as (b' & E' & H' & L').
  - rewrite skipn_length. lia.
  - exact H.
  - intros Z. assert (length file = 0) by lia. destruct file; [|discriminate]. rewrite Z, L. cbn. split; [reflexivity|lia].
  - rewrite firstn_skipn in *. rewrite firstn_length, Nat.min_l in E' by lia. rewrite E'. cbn [rbind].
    destruct (Nat.ltb_spec (length file + 1) (length b')); [|lia].
    destruct H' as (k & HK). assert (KL : length b' = length file + k) by (rewrite HK, app_length, repeat_length; lia).
    eexists. split; [reflexivity|]. split.
    + exists k. rewrite HK. rewrite firstn_app, skipn_app. rewrite (firstn_all2 file), (skipn_all2 file) by lia. cbn [app].
      replace (length file + 1 - length file) with 1 by lia. replace (length file + 2 - length file) with 2 by lia.
      destruct k as [|[|k]]; [lia|lia|]. cbn. now rewrite <- app_assoc.
    + rewrite app_length, firstn_length. cbn [length]. rewrite skipn_length. lia.
Qed.
Lemma include_whole short file : (forall i, 1 <= short i) ->
  media_include short (length file + 1) (Some file) = Ret (Runs file 0%N).
Proof.
  intros SH. unfold media_include. destruct (program_read short file SH) as (b & -> & (k & HK) & L). cbn [rbind].
  assert (KL : length b = length file + k) by (rewrite HK, app_length, repeat_length; lia).
  unfold rd. rewrite HK, nth_error_app2, Nat.sub_diag by lia. destruct k; [lia|]. cbn [repeat nth_error].
  rewrite firstn_app, Nat.sub_diag, firstn_all. cbn [firstn]. now rewrite app_nil_r.
Qed.
(** whatever the reads answer, nothing is written outside the block, and the program is some beginning of the file *)
Lemma loop_any short : forall fuel rest i b done got,
  length rest < fuel -> holds b done -> (got = 0 -> length done + 1 < length b) ->
  exists b' m, read_loop short fuel i b (length done) got rest = Ret (b', length (done ++ firstn m rest)) /\ holds b' (done ++ firstn m rest) /\
    length (done ++ firstn m rest) + 1 < length b'.
Proof.
  induction fuel as [|k IH]; intros rest i b done got F H G; [lia|].
  destruct got as [|g].
  - exists b, 0. cbn [read_loop firstn]. rewrite app_nil_r. auto.
  - cbn [read_loop]. pose proof chunk_pos as CP.
    destruct (grow_holds b done (length done + chunk + 1) H) as [GH GL].
    destruct (read_holds _ done chunk (short i) rest GH ltac:(lia)) as (b' & -> & H' & L').
    set (n := Nat.min (Nat.min chunk (short i)) (length rest)) in *.
    destruct (Nat.eq_dec n 0) as [Z|NZ].
    + exists b', 0. rewrite Z in *. cbn [firstn] in *. rewrite app_nil_r, Nat.add_0_r in *. destruct k; cbn [read_loop]; (split; [reflexivity|]); (split; [exact H'|lia]).
    + replace (length done + n) with (length (done ++ firstn n rest)) by (rewrite app_length, firstn_length; lia).
      destruct (IH (skipn n rest) (S i) b' (done ++ firstn n rest) n) as (b2 & m & E & HB & LB); auto; [rewrite skipn_length; lia|lia|].
      exists b2, (n + m).
      assert (EE : done ++ firstn (n + m) rest = (done ++ firstn n rest) ++ firstn m (skipn n rest)).
      { rewrite <- app_assoc. f_equal. rewrite <- (firstn_skipn n rest) at 1. rewrite firstn_app, firstn_firstn.
        rewrite firstn_length. replace (Nat.min (n + m) n) with n by lia. replace (n + m - Nat.min n (length rest)) with m by lia. reflexivity. }
      now rewrite EE.
Qed.
Lemma include_some short file : exists m, media_include short (length file + 1) (Some file) = Ret (Runs (firstn m file) 0%N).
Proof.
  pose proof chunk_pos as CP. unfold media_include, read_program.
  assert (H0 : holds (repeat 0%N chunk) []) by (exists chunk; reflexivity).
  destruct (read_holds _ [] chunk (short 0) file H0) as (b & E & H & L); [rewrite repeat_length; cbn; lia|].
  cbn [length] in E. rewrite E. set (n := Nat.min (Nat.min chunk (short 0)) (length file)) in *. rewrite repeat_length in L. cbn [app] in H.
  destruct (loop_any short (length file + 1) (skipn n file) 1 b (firstn n file) n) as (b' & m & E' & H' & L').
  - rewrite skipn_length. lia.
  - exact H.
  - intros Z. rewrite Z, L. cbn. lia.
  - assert (EE : firstn n file ++ firstn m (skipn n file) = firstn (n + m) file).
    { rewrite <- (firstn_skipn n file) at 3. rewrite firstn_app, firstn_firstn, firstn_length.
      replace (Nat.min (n + m) n) with n by lia. replace (n + m - Nat.min n (length file)) with m by lia. reflexivity. }
    rewrite EE in *. set (d := firstn (n + m) file) in *. rewrite firstn_length, Nat.min_l in E' by lia. rewrite E'. cbn [rbind].
    destruct (Nat.ltb_spec (length d + 1) (length b')); [|lia]. cbn [rbind].
    destruct H' as (k & HK). assert (KL : length b' = length d + k) by (rewrite HK, app_length, repeat_length; lia).
    exists (n + m). fold d. destruct k as [|[|k]]; [lia|lia|].
    assert (FF : firstn (length d + 1) b' ++ 0%N :: skipn (length d + 2) b' = b').
    { rewrite HK. rewrite firstn_app, skipn_app. rewrite (firstn_all2 d), (skipn_all2 d) by lia. cbn [app].
      replace (length d + 1 - length d) with 1 by lia. replace (length d + 2 - length d) with 2 by lia. cbn. now rewrite <- app_assoc. }
    rewrite FF, HK. unfold rd. rewrite nth_error_app2, Nat.sub_diag by lia. cbn [repeat nth_error].
    rewrite firstn_app, Nat.sub_diag, firstn_all. cbn [firstn]. now rewrite app_nil_r.
Qed.

(** * The kind of a file *)
Lemma magic_20 f : length (firstn 20 f ++ repeat 0%N (20 - length f)) = 20.
Proof. rewrite app_length, firstn_length, repeat_length. lia. Qed.
Lemma strcmp0_iff b s : length s < length b -> ~ In 0%N s ->
  exists r, strcmp0 b s = Ok r /\ (r = true <-> exists t, b = s ++ 0%N :: t).
Proof.
  revert b. induction s as [|d s IH]; intros [|c b] L NZ; cbn in L; try lia.
  - exists (c =? 0)%N. split; [reflexivity|]. rewrite N.eqb_eq. split; [intros ->; now exists b|intros (t & E); cbn in E; congruence].
  - cbn [strcmp0]. destruct (N.eqb_spec c d) as [->|NE].
    + destruct (N.eqb_spec d 0) as [->|]; [exfalso; apply NZ; now left|].
      destruct (IH b ltac:(lia)) as (r & -> & I); [intros X; apply NZ; now right|]. exists r. split; [reflexivity|]. rewrite I.
      split; intros (t & E); exists t; cbn in *; congruence.
    + exists false. split; [reflexivity|]. split; [discriminate|]. intros (t & E). cbn in E. congruence.
Qed.
Lemma nin_jpg : ~ In 0%N [255; 216]%N. Proof. cbn. intuition discriminate. Qed.
Lemma nin_png : ~ In 0%N png_signature. Proof. cbn. intuition discriminate. Qed.
(** the file, cut or padded with zeros to [k] bytes, begins with [p] and a zero byte *)
Lemma padded_starts p : ~ In 0%N p -> forall k f, length p < k ->
  (exists t, firstn k f ++ repeat 0%N (k - length f) = p ++ 0%N :: t) <-> (f = p \/ starts_with (p ++ [0%N]) f).
Proof.
  induction p as [|d p IH]; intros NZ [|k] f L; cbn [length] in L; try lia.
  - destruct f as [|c f]; cbn.
    + split; [now left|]. intros _. eexists. reflexivity.
    + split.
      * intros (t & E). right. exists f. cbn. congruence.
      * intros [E|(r & E)]; [discriminate|]. cbn in E. injection E as -> ->. eexists. reflexivity.
  - destruct f as [|c f]; cbn [firstn length app Nat.sub repeat].
    + split.
      * intros (t & E). cbn in E. exfalso. apply NZ. left. congruence.
      * intros [E|(r & E)]; discriminate.
    + specialize (IH ltac:(intros X; apply NZ; now right) k f ltac:(lia)). split.
      * intros (t & E). injection E as -> E. destruct IH as [IH _]. destruct IH as [->|(r & ->)]; [now exists t|now left|right; now exists r].
      * intros [E|(r & E)].
        -- injection E as -> ->. destruct IH as [_ IH]. destruct IH as (t & E); [now left|]. exists t. now rewrite E.
        -- cbn in E. injection E as -> E. destruct IH as [_ IH]. destruct IH as (t & E'); [right; now exists r|]. exists t. now rewrite E'.
Qed.
(** exactly which files are taken for which kind *)
Definition like (p f : text) : Prop := f = p \/ starts_with (p ++ [0%N]) f.
Lemma filetype_spec f : exists t, determine_filetype (Some f) = Ok t /\
  (t = 20 <-> like [255; 216]%N f) /\ (t = 30 <-> like png_signature f) /\ (t = 20 \/ t = 30 \/ t = 0).
Proof.
  unfold determine_filetype.
  set (m := firstn 20 f ++ repeat 0%N (20 - length f)).
  destruct (strcmp0_iff m [255; 216]%N) as (j & -> & J); [unfold m; rewrite magic_20; cbn; lia|exact nin_jpg|].
  destruct (strcmp0_iff m png_signature) as (q & EQ & Q); [unfold m; rewrite magic_20; cbn; lia|exact nin_png|].
  unfold m in J, Q. rewrite (padded_starts _ nin_jpg) in J by (cbn; lia). rewrite (padded_starts _ nin_png) in Q by (cbn; lia).
  fold (like [255; 216]%N f) in J. fold (like png_signature f) in Q.
  assert (X : like [255; 216]%N f -> like png_signature f -> False).
  { intros [->|(r & ->)] [E|(r' & E)]; discriminate. }
  cbn [obind]. destruct j.
  - exists 20. split; [reflexivity|]. assert (like [255; 216]%N f) by now apply J. intuition discriminate.
  - unfold png_signature in EQ. rewrite EQ. cbn [obind]. exists (if q then 30 else 0). split; [reflexivity|].
    assert (~ like [255; 216]%N f) by (intros Y; apply J in Y; discriminate).
    destruct q; intuition discriminate.
Qed.
Lemma png_accepted f : is_png f -> determine_filetype (Some f) = Ok 30.
Proof.
  intros (r & ->). destruct (filetype_spec (png_signature ++ [0; 0; 0; 13; 73; 72; 68; 82]%N ++ r)) as (t & -> & _ & I & _).
  f_equal. apply I. right. now exists ([0; 0; 13; 73; 72; 68; 82]%N ++ r).
Qed.
Lemma jpeg_refused f : is_jpeg f -> canvas_accepted (Some f) = Ok false.
Proof.
  intros (r & ->). unfold canvas_accepted. destruct (filetype_spec ([255; 216; 255]%N ++ r)) as (t & -> & J & I & [T|[T|T]]).
  - apply J in T. destruct T as [E|(x & E)]; discriminate.
  - apply I in T. destruct T as [E|(x & E)]; discriminate.
  - now rewrite T.
Qed.
Lemma other_refused f : ~ starts_with png_signature f -> ~ starts_with [255; 216]%N f -> canvas_accepted (Some f) = Ok false.
Proof.
  intros NP NJ. unfold canvas_accepted. destruct (filetype_spec f) as (t & -> & J & I & [T|[T|T]]).
  - exfalso. apply J in T. apply NJ. destruct T as [->|(x & ->)]; [exists []; now rewrite app_nil_r|]. exists (0%N :: x). now rewrite <- app_assoc.
  - exfalso. apply I in T. apply NP. destruct T as [->|(x & ->)]; [exists []; now rewrite app_nil_r|]. exists (0%N :: x). now rewrite <- app_assoc.
  - now rewrite T.
Qed.
