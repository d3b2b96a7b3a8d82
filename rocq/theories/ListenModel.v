(** The event loop of the Media plug-in as far as it concerns listeners (plugins/media/media.c 1253-1289 and 1401-1705, the
    effect 1 in 4390-4428, [ctr_media_on_do] 4171-4184; [ctr_object_on_do], base.c 485-502; finding the method,
    world.c 1055-1150).

    Objects are numbers; [chain] is the object of the screen with its parents, [proto] the Media object with its parents.
    [media o]: [on:do:] said to [o] is that of Media.  The listeners are any program: given what was heard so far they send
    [on:do:], [end], raise errors and ask for the effect.  [busy] are the blocks that were being run when the screen was
    opened (the message stack).
    Left out: a program's [respond:] (that of Object does nothing), drawing, moving and editing (modelled elsewhere), and which
    timers are due (TimerModel.v): the list is given. *)
From Coq Require Import ZArith.
From Verif Require Import Common CodecSpec ListenSpec.

(** media.c 172-178 *)
Record flags := mkFl { f_keyup : bool; f_keydown : bool; f_click : bool; f_padup : bool; f_paddown : bool; f_timer : bool; f_step : bool }.
(** The methods of objects, the latest first; [CtrStdFlow]; [CtrMediaBreakLoopFlag]; [CtrMediaFXFlagMapABXY2Up]; what listeners heard,
    the latest first *)
Record st := mkSt { fl : flags; methods : table; flow : bool; brk : bool; fx : Z; seen : list heard }.

Section Loop.
Variables (names : kind -> text) (ending : text) (chain proto : list nat) (react : list heard -> nat -> list cmd).
Variables (button : nat -> text) (abxy : nat -> bool) (up : text) (media : nat -> bool) (busy : list nat).

(** media.c 4174-4180: the chain of comparisons *)
Definition set_flag (f : flags) (n : text) (v : bool) : flags :=
  if text_eqb (names KeyUp) n then mkFl v (f_keydown f) (f_click f) (f_padup f) (f_paddown f) (f_timer f) (f_step f)
  else if text_eqb (names KeyDown) n then mkFl (f_keyup f) v (f_click f) (f_padup f) (f_paddown f) (f_timer f) (f_step f)
  else if text_eqb (names Click) n then mkFl (f_keyup f) (f_keydown f) v (f_padup f) (f_paddown f) (f_timer f) (f_step f)
  else if text_eqb (names PadDown) n then mkFl (f_keyup f) (f_keydown f) (f_click f) (f_padup f) v (f_timer f) (f_step f)
  else if text_eqb (names PadUp) n then mkFl (f_keyup f) (f_keydown f) (f_click f) v (f_paddown f) (f_timer f) (f_step f)
  else if text_eqb (names Timer) n then mkFl (f_keyup f) (f_keydown f) (f_click f) (f_padup f) (f_paddown f) v (f_step f)
  else if text_eqb (names Step) n then mkFl (f_keyup f) (f_keydown f) (f_click f) (f_padup f) (f_paddown f) (f_timer f) v
  else f.

(** base.c 485-502, [ctr_object_on_do] *)
Definition object_on_do (s : st) (o : nat) (n : text) (is_text : bool) (l : listener) : st :=
  if is_text then
    match l with
    | Block b => mkSt (fl s) ((o, n, User b) :: methods s) (flow s) (brk s) (fx s) (seen s)
    | _ => mkSt (fl s) (methods s) true (brk s) (fx s) (seen s)
    end
  else mkSt (fl s) (methods s) true (brk s) (fx s) (seen s).
(** media.c 4171-4184, [ctr_media_on_do] *)
Definition media_on_do (s : st) (o : nat) (n : text) (is_text : bool) (l : listener) : st :=
  let v := match l with Nothing => false | _ => true end in
  object_on_do (mkSt (set_flag (fl s) n v) (methods s) (flow s) (brk s) (fx s) (seen s)) o n is_text l.

(** What a listener does; messages are not sent while there is an error (world.c 1069); [Leave] is media.c 1253-1256,
    [Remap] media.c 4414-4418 *)
Fixpoint perform (s : st) (c : cmd) : st :=
  if flow s then s
  else match c with
       | OnDo o n i l => if media o then media_on_do s o n i l else object_on_do s o n i l
       | Leave => mkSt (fl s) (methods s) (flow s) true (fx s) (seen s)
       | Raise => mkSt (fl s) (methods s) true (brk s) (fx s) (seen s)
       | Remap v => mkSt (fl s) (methods s) (flow s) (brk s) v (seen s)
       | Caught c => let s1 := perform s c in mkSt (fl s1) (methods s1) false (brk s1) (fx s1) (seen s1)
       end.

(** world.c 269 and further, [ctr_internal_object_find_property]: the latest of an object *)
Fixpoint find (ms : table) (o : nat) (n : text) : option method :=
  match ms with
  | [] => None
  | (o', n', m) :: r => if Nat.eqb o' o then if text_eqb n' n then Some m else find r o n else find r o n
  end.
(** world.c 1078-1098: a method that is being run is skipped *)
Definition running (m : method) : bool := match m with User b => existsb (Nat.eqb b) busy | _ => false end.
Fixpoint lookup (ms : table) (c : list nat) (n : text) : option method :=
  match c with
  | [] => None
  | o :: r => match find ms o n with Some m => if running m then lookup ms r n else Some m | None => lookup ms r n end
  end.
(** world.c 1055-1150, [ctr_send_message] *)
Definition send (c : list nat) (s : st) (n : text) (a : list arg) : st :=
  if flow s then s
  else match lookup (methods s) c n with
       | Some (User b) =>
           fold_left perform (react (seen s) b) (mkSt (fl s) (methods s) (flow s) (brk s) (fx s) (mkH b n a :: seen s))
       | Some Ends => mkSt (fl s) (methods s) (flow s) true (fx s) (seen s)
       | Some Idle => s
       | None => s
       end.

(** media.c 1323-1331 as far as it sends, and the checks of 1427 and 1429 *)
Definition timers (s : st) (l : list Z) : st :=
  if f_timer (fl s) then fold_left (fun s i => send chain s (names Timer) [ANum i]) l s else s.

(** media.c 1438-1705: one event; [true]: return *)
Definition dispatch (s : st) (h : happening) : st * bool :=
  match h with
  | Quitted =>
      let s1 := send proto s ending [] in
      (mkSt (mkFl false false false false false false false) (methods s1) true false 0 (seen s1), true)
  | Clicked lft times x y =>
      (if lft && Nat.eqb times 1 && f_click (fl s) then send chain s (names Click) [ANum x; ANum y] else s, false)
  | PadDowned b =>
      let s1 := if f_paddown (fl s) then send chain s (names PadDown) [AText (button b)] else s in
      (if (fx s1 =? 1)%Z && abxy b then send chain s1 (names PadDown) [AText up] else s1, false)
  | PadUpped b =>
      let s1 := if f_padup (fl s) then send chain s (names PadUp) [AText (button b)] else s in
      (if (fx s1 =? 1)%Z && abxy b then send chain s1 (names PadUp) [AText up] else s1, false)
  | KeyUpped k => (if f_keyup (fl s) then send chain s (names KeyUp) [AText k] else s, false)
  | KeyDowned k => (if f_keydown (fl s) then send chain s (names KeyDown) [AText k] else s, false)
  | Other => (s, false)
  end.
Fixpoint polling (s : st) (l : list (list Z * happening)) : st * bool :=
  match l with
  | [] => (s, false)
  | (d, h) :: r => let (s1, q) := dispatch (timers s d) h in if q then (s1, true) else polling s1 r
  end.
(** media.c 1401-1705: one round of the loop; [true]: the loop ended *)
Definition round (s : st) (f : frame) : st * bool :=
  if flow s then (s, true)
  else
    let s1 := if f_step (fl s) then send chain s (names Step) [] else s in
    if brk s1 then (mkSt (fl s1) (methods s1) (flow s1) false (fx s1) (seen s1), true)
    else polling (timers s1 (due f)) (happened f).
Fixpoint rounds (s : st) (l : list frame) : st * bool :=
  match l with [] => (s, false) | f :: r => let (s1, q) := round s f in if q then (s1, true) else rounds s1 r end.
End Loop.

(** media.c 240-280: after [ctr_internal_media_reset]; Media has native methods for [step] (which does nothing, 4479) and [end] *)
Definition initial (ms : table) : st := mkSt (mkFl false false false false false false false) ms false false 0 [].
