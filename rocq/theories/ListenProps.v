(** C139: what happens on a screen is heard by its listeners. *)
From Coq Require Import ZArith String.
From Verif Require Import Common CodecSpec Txt ListenSpec ListenModel ListenProofs.
Local Open Scope list_scope.
Notation tx := lit.

(** The names of the seven messages in the seventeen languages of the plug-in (plugins/media/i18n/*/media.h 15-20, 64): step, timer,
    key up, key down, click, gamepad down, gamepad up *)
Definition languages : list (list text) :=
  [[tx "krok"; tx "alarm:"; tx "klávesa:"; tx "klávesa stisknuto:"; tx "klikněte-x:y:"; tx "gamepad stisknuto:"; tx "gamepad:"] (* cs *);
   [tx "schritt"; tx "timer:"; tx "taste:"; tx "taste-nach-unten:"; tx "klick-x:y:"; tx "gamepad-nach-unten:"; tx "gamepad:"] (* de *);
   [tx "step"; tx "timer:"; tx "key:"; tx "key-down:"; tx "click-x:y:"; tx "gamepad-down:"; tx "gamepad:"] (* en *);
   [tx "paso"; tx "temporizador:"; tx "flecha-arriba:"; tx "flecha-abajo:"; tx "click-x:y:"; tx "mando-hacia-abajo:"; tx "mando-hacia-arriba:"] (* es *);
   [tx "مرحله"; tx "تایمر:"; tx "کلید:"; tx "کلید-پایین:"; tx "کلیک-x:y:"; tx "گیم‌پد-پایین:"; tx "گیم‌پد:"] (* fa *);
   [tx "étape"; tx "alarme:"; tx "touche:"; tx "touche enfoncée:"; tx "cliquez x:y:"; tx "gamepad enfoncée:"; tx "gamepad:"] (* fr *);
   [tx "stap"; tx "tiid:"; tx "toets:"; tx "toets-omleech:"; tx "klikke-x:y:"; tx "spultsje-omleech:"; tx "spultsje:"] (* fy *);
   [tx "कदम"; tx "अलार्म:"; tx "कुंजी:"; tx "कुंजी दबाया:"; tx "क्लिक-लिंक:हुगटे:"; tx "गेमपैड दबाया:"; tx "गेमपैड:"] (* hi *);
   [tx "langkah"; tx "alarm:"; tx "tombol:"; tx "tombol-bawah:"; tx "klik-x:y:"; tx "pengendali-bawah:"; tx "pengendali:"] (* id *);
   [tx "passo"; tx "timer:"; tx "tasto:"; tx "tasto-giu:"; tx "clic-x:y:"; tx "gamepad-giu:"; tx "gamepad:"] (* it *);
   [tx "stap"; tx "wekker:"; tx "toets:"; tx "toetsin:"; tx "klik-x:y:"; tx "gamepadin:"; tx "gamepad:"] (* nl *);
   [tx "trinn"; tx "tidtaker:"; tx "tast:"; tx "tast-ned:"; tx "klikk-x:y:"; tx "spillkontroller-ned:"; tx "spillkontroller:"] (* no *);
   [tx "krok"; tx "alarm:"; tx "klawisz:"; tx "klawisz-dół:"; tx "kliknij-x:y:"; tx "pad-dół:"; tx "pad:"] (* pl *);
   [tx "passo"; tx "alarme:"; tx "tecla:"; tx "tecla-baixo:"; tx "clique-x:y:"; tx "controle-baixo:"; tx "controle:"] (* pt_br *);
   [tx "шаг"; tx "таймер:"; tx "клавиша:"; tx "клавиша-вниз:"; tx "нажать-x:y:"; tx "геймпад-вниз:"; tx "геймпад:"] (* ru *);
   [tx "qadam"; tx "taymer:"; tx "tugma:"; tx "tugma-pastga:"; tx "bosish-x:y:"; tx "o‘yinpad-pastga:"; tx "o‘yinpad:"] (* uz *);
   [tx "步!"; tx "定时器:"; tx "键:"; tx "键-按下:"; tx "点击-x:y:"; tx "手柄-按下:"; tx "手柄:"] (* zh2 *)].
Definition index (k : kind) : nat :=
  match k with Step => 0 | Timer => 1 | KeyUp => 2 | KeyDown => 3 | Click => 4 | PadDown => 5 | PadUp => 6 end.
Definition names_of (l : list text) (k : kind) : text := nth (index k) l [].

(** In every language of the plug-in the seven names can be told apart *)
Theorem C139_languages : forall l, In l languages -> told_apart (names_of l).
Proof.
  intros l H k k'. unfold languages in H.
  repeat (destruct H as [<-|H]; [destruct k, k'; vm_compute; intros E; try reflexivity; discriminate E|]). destruct H.
Qed.
Print Assumptions C139_languages.

(** For programs that play by the rules ([plain]): what is heard, who is registered, whether there is an error and whether the screen is
    left are as if there were no flags at all: who has a block for a message hears it *)
Theorem C139_heard_partial : forall names ending chain proto react button abxy up media ms setup frames,
  told_apart names -> natives names chain ms ->
  Forall (plain names media chain) setup -> (forall h b, Forall (plain names media chain) (react h b)) ->
  let r := rounds names ending chain proto react button abxy up media [] (fold_left (perform names media) setup (initial ms)) frames in
  let p := shows names ending chain proto react button abxy up (fold_left does setup (mkS ms false false 0 [])) frames in
  seen (fst r) = log (fst p) /\ methods (fst r) = table_of (fst p) /\ flow (fst r) = failed (fst p) /\ snd r = snd p.
Proof. exact heard_lemma. Qed.
Print Assumptions C139_heard_partial.

(** With listeners set up beforehand that do nothing to listeners, the screen or errors: everything that happened is heard by the latest
    listener of the nearest object, with its arguments, once, in order *)
Theorem C139_all_partial : forall names ending chain proto button abxy up media ms (setup : list (nat * text * nat)) frames,
  told_apart names -> natives names chain ms -> Forall no_quit frames ->
  Forall (fun e => media (fst (fst e)) = true \/ ~ In (fst (fst e)) chain \/ forall k, snd (fst e) <> names k) setup ->
  let r := rounds names ending chain proto (fun _ _ => []) button abxy up media []
             (fold_left (perform names media) (map (fun e => OnDo (fst (fst e)) (snd (fst e)) true (Block (snd e))) setup) (initial ms)) frames in
  rev (seen (fst r)) =
    flat_map (hears chain (rev (map (fun e => (fst (fst e), snd (fst e), User (snd e))) setup) ++ ms))
             (flat_map (frame_messages names button abxy up false) frames) /\
  snd r = false.
Proof. exact static_lemma. Qed.
Print Assumptions C139_all_partial.

(** For every program, whatever it does: what is heard is some of what happened, in that order, each once *)
Theorem C139_no_more : forall names ending chain proto react button abxy up media busy frames s, exists l,
  map (fun h => (what h, args h)) (rev (seen (fst (rounds names ending chain proto react button abxy up media busy s frames)))) =
    map (fun h => (what h, args h)) (rev (seen s)) ++ l /\
  among l (flat_map (may names ending button abxy up) frames).
Proof. exact (fun a b c d e f g h i j l s => rounds_adds a b c d e f g h i j l s). Qed.
Print Assumptions C139_no_more.

(** Once there is an error nothing is heard, neither of the rest of the frame nor in later frames, and the screen is left *)
Theorem C139_error : forall names ending chain proto react button abxy up media busy s, flow s = true ->
  (forall l, seen (fst (polling names ending chain proto react button abxy up media busy s l)) = seen s /\
             flow (fst (polling names ending chain proto react button abxy up media busy s l)) = true) /\
  (forall l, seen (fst (rounds names ending chain proto react button abxy up media busy s l)) = seen s /\
             (l <> [] -> snd (rounds names ending chain proto react button abxy up media busy s l) = true)).
Proof.
  exact (fun a b c d e f g h i j s H =>
    conj (fun l => polling_flow a b c d e f g h i j l s H) (fun l => rounds_flow a b c d e f g h i j l s H)).
Qed.
Print Assumptions C139_error.

(** Once [end] was said the screen is left in the next frame, of which at most the step is heard *)
Theorem C139_leave : forall names ending chain proto react button abxy up media busy s f l, brk s = true ->
  snd (rounds names ending chain proto react button abxy up media busy s (f :: l)) = true /\
  exists x,
    map (fun h => (what h, args h)) (rev (seen (fst (rounds names ending chain proto react button abxy up media busy s (f :: l))))) =
      map (fun h => (what h, args h)) (rev (seen s)) ++ x /\ among x [(names Step, [])].
Proof. exact (fun a b c d e f g h i j s x l H => leaves_lemma a b c d e f g h i j s x l H). Qed.
Print Assumptions C139_leave.

(** *** Examples: the English names; object 0 is Object, 1 is Media, 2 a Media of the program, 3 another *)
Definition en := names_of (nth 2 languages []).
Definition is_media (o : nat) : bool := negb (Nat.eqb o 0).
Definition base : table := [(1, tx "step", Idle); (1, tx "end", Ends)].
Definition btn (b : nat) : text := nth b [tx "a"; tx "b"; tx "x"; tx "y"; tx "start"] [].
Definition is_abxy (b : nat) : bool := Nat.ltb b 4.
Definition show (react : list heard -> nat -> list cmd) (busy : list nat) (setup : list cmd) (fs : list frame) : list heard * bool :=
  let r := rounds en (tx "end") [2; 1; 0] [1; 0] react btn is_abxy (tx "dpup") is_media busy
             (fold_left (perform en is_media) setup (initial base)) fs in
  (rev (seen (fst r)), snd r).
Definition quiet (_ : list heard) (_ : nat) : list cmd := [].

(** The table of the start answers none of the seven messages but [step], for which it does nothing *)
Example C139_natives : natives en [2; 1; 0] base.
Proof. intros k m H. destruct k; vm_compute in H; congruence. Qed.

Example C139_case :
  show quiet [] [OnDo 1 (tx "key:") true (Block 7); OnDo 2 (tx "key:") true (Block 8); OnDo 2 (tx "click-x:y:") true (Block 9)]
    [mkF [] [([], KeyUpped (tx "A")); ([], Clicked true 1 3 4); ([], KeyDowned (tx "B"))]; mkF [] [([], KeyUpped (tx "C"))]] =
  ([mkH 8 (tx "key:") [AText (tx "A")]; mkH 9 (tx "click-x:y:") [ANum 3; ANum 4]; mkH 8 (tx "key:") [AText (tx "C")]], false).
Proof. vm_compute. reflexivity. Qed.

(** A listener that registers another one: the later key is heard by the new one; buttons remapped; an error at the end *)
Example C139_case2 :
  show (fun h b => match b with 7 => [OnDo 2 (tx "key:") true (Block 8); OnDo 2 (tx "gamepad:") true (Block 5); Remap 1] | 8 => [Raise] | _ => [] end) []
    [OnDo 2 (tx "key:") true (Block 7)]
    [mkF [] [([], KeyUpped (tx "A")); ([], PadUpped 0); ([], PadUpped 4); ([], KeyUpped (tx "B")); ([], KeyUpped (tx "C"))]; mkF [] []] =
  ([mkH 7 (tx "key:") [AText (tx "A")]; mkH 5 (tx "gamepad:") [AText (tx "a")]; mkH 5 (tx "gamepad:") [AText (tx "dpup")];
    mkH 5 (tx "gamepad:") [AText (tx "start")]; mkH 8 (tx "key:") [AText (tx "B")]], true).
Proof. vm_compute. reflexivity. Qed.

(** Giving listeners to Media objects, replacing one in a listener, and catching other errors is all by the rules *)
Example C139_rules : Forall (plain en is_media [2; 1; 0])
  [OnDo 1 (tx "key:") true (Block 7); OnDo 2 (tx "step") true (Block 8); OnDo 0 (tx "greet") true (Block 9); OnDo 2 (tx "key:") true Nothing;
   Caught Raise; Caught (OnDo 2 (tx "key:") true Thing); Leave; Remap 1].
Proof.
  repeat (apply Forall_cons; [simpl; auto|]); try apply Forall_nil.
  right. right. intros k. destruct k; vm_compute; discriminate.
Qed.

(** *** Findings *)
(** A listener of all objects ([Object on: 'key:' do:]) is found for the message but the message is never sent *)
Theorem C139_object_refuted : exists setup fs,
  (forall h b, Forall (plain en is_media [2; 1; 0]) (quiet h b)) /\
  own (methods (fold_left (perform en is_media) setup (initial base))) 0 (tx "key:") = Some (User 7) /\
  fst (show quiet [] setup fs) = [] /\
  flat_map (hears [2; 1; 0] (methods (fold_left (perform en is_media) setup (initial base))))
    (flat_map (frame_messages en btn is_abxy (tx "dpup") false) fs) = [mkH 7 (tx "key:") [AText (tx "A")]].
Proof.
  exists [OnDo 0 (tx "key:") true (Block 7)], [mkF [] [([], KeyUpped (tx "A"))]].
  split; [intros; apply Forall_nil|]. vm_compute. repeat split.
Qed.

(** Taking a listener away with Nil raises an error; where it is caught the block is still there, but nobody hears, not even the
    listeners of other Media objects *)
Theorem C139_nil_refuted : exists setup fs,
  answer (methods (fold_left (perform en is_media) setup (initial base))) [2; 1; 0] (tx "key:") = Some (User 7) /\
  flow (fold_left (perform en is_media) setup (initial base)) = false /\
  fst (show quiet [] setup fs) = [] /\
  flow (perform en is_media (initial base) (OnDo 3 (tx "key:") true Nothing)) = true.
Proof.
  exists [OnDo 2 (tx "key:") true (Block 7); Caught (OnDo 3 (tx "key:") true Nothing)], [mkF [] [([], KeyUpped (tx "A"))]].
  vm_compute. repeat split.
Qed.

(** [end] in a listener: the rest of the frame is still heard, and the step of the next *)
Theorem C139_end_refuted : exists react setup fs,
  show react [] setup fs =
  ([mkH 6 (tx "step") []; mkH 7 (tx "key:") [AText (tx "A")]; mkH 7 (tx "key:") [AText (tx "B")]; mkH 6 (tx "step") []], true) /\
  react [mkH 6 (tx "step") []] 7 = [Leave].
Proof.
  exists (fun h b => if Nat.eqb b 7 then [Leave] else []), [OnDo 2 (tx "key:") true (Block 7); OnDo 2 (tx "step") true (Block 6)],
    [mkF [] [([], KeyUpped (tx "A")); ([], KeyUpped (tx "B"))]; mkF [] [([], KeyUpped (tx "C"))]; mkF [] []].
  vm_compute. repeat split.
Qed.

(** Of two clicks in quick succession (SDL counts the second as number two) the second is not heard *)
Theorem C139_click_refuted : exists setup fs,
  show quiet [] setup fs = ([mkH 7 (tx "click-x:y:") [ANum 3; ANum 4]], false) /\
  flat_map (fun f => flat_map (fun p => match snd p with Clicked true _ x y => [(x, y)] | _ => [] end) (happened f)) fs = [(3, 4); (3, 5)]%Z.
Proof.
  exists [OnDo 2 (tx "click-x:y:") true (Block 7)], [mkF [] [([], Clicked true 1 3 4); ([], Clicked true 2 3 5)]]. vm_compute. repeat split.
Qed.

(** A listener that opens a screen itself does not hear what happens there: its method is being run *)
Theorem C139_nested_refuted : exists setup fs,
  fst (show quiet [] setup fs) = [mkH 7 (tx "key:") [AText (tx "A")]] /\
  fst (show quiet [7] setup fs) = [].
Proof. exists [OnDo 2 (tx "key:") true (Block 7)], [mkF [] [([], KeyUpped (tx "A"))]]. vm_compute. repeat split. Qed.
Print Assumptions C139_object_refuted.
Print Assumptions C139_nil_refuted.
Print Assumptions C139_end_refuted.
Print Assumptions C139_click_refuted.
Print Assumptions C139_nested_refuted.
