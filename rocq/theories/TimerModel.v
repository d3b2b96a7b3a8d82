(** The timers of the Media plug-in (plugins/media/media.c 192-193, 277-279, 1312-1331 and the loop of [ctr_media_screen]
    as far as it concerns timers).

    The listener of timers is any program: given all that happened so far and the number of the timer, it sends
    [timer:after:] a number of times and may raise an error.  While there is an error, messages are not sent
    (world.c 1069).  Left out: everything else in the loop. *)
From Verif Require Import Common NumModel TimerSpec.
Local Open Scope Z_scope.

(** media.c 193 *)
Definition max_timers : Z := 100.
(** media.c 192, [int CtrMediaTimers[100]]; 44, [CtrMediaTicks2]; [CtrStdFlow]; what was seen, the latest first *)
Record st := mkT { timers : list Z; ticks : Z; flow : bool; seen : list event }.

Definition get (l : list Z) (i : Z) : outcome Z :=
  if 0 <=? i then match nth_error l (Z.to_nat i) with Some v => Ok v | None => UB end else UB.
Definition set (l : list Z) (i v : Z) : outcome (list Z) :=
  if (0 <=? i) && (i <? Z.of_nat (length l)) then Ok (firstn (Z.to_nat i) l ++ v :: skipn (S (Z.to_nat i)) l) else UB.

(** [uint64_t] to [int]: the lower 32 bits, as compilers have it *)
Definition to_int (z : Z) : Z := (z + 2147483648) mod 4294967296 - 2147483648.

(** media.c 277-279, the timers in [ctr_internal_media_reset]; [k] rounds from [i] *)
Fixpoint reset_from (k : nat) (i : Z) (l : list Z) : outcome (list Z) :=
  match k with
  | O => Ok l
  | S k' => if i <=? max_timers then do l' <- set l i (-1); reset_from k' (i + 1) l' else Ok l
  end.
Definition reset (l : list Z) : outcome (list Z) := reset_from (S (Z.to_nat max_timers)) 1 l.

(** media.c 1310-1322, [ctr_media_timer]; world.c 1069 *)
Definition timer (s : st) (no ms : num) : outcome st :=
  if flow s then Ok s
  else
    do n <- c_int no;
    do m <- c_int ms;
    if (n <? 1) || (max_timers <? n) then Ok (mkT (timers s) (ticks s) true (seen s))
    else
      do l <- (if -1 <? m then set (timers s) n (to_int (wrap64 (ticks s + m))) else set (timers s) n (-1));
      Ok (mkT l (ticks s) false (Asked n m (ticks s) :: seen s)).

Fixpoint requests (s : st) (l : list (num * num)) : outcome st :=
  match l with [] => Ok s | (n, m) :: r => do s1 <- timer s n m; requests s1 r end.

Section Loop.
Variable listener : list event -> Z -> list (num * num) * bool.

(** media.c 1266-1273, [ctr_media_event_timer] *)
Definition ring (s : st) (i : Z) : outcome st :=
  if flow s then Ok s
  else
    let s1 := mkT (timers s) (ticks s) false (Rang i (ticks s) :: seen s) in
    let (l, err) := listener (seen s) i in
    do s2 <- requests s1 l;
    Ok (mkT (timers s2) (ticks s2) (flow s2 || err) (seen s2)).

(** media.c 1323-1331, [ctr_internal_media_update_timers]; [k] rounds from [i] *)
Fixpoint update_from (k : nat) (i : Z) (s : st) : outcome st :=
  match k with
  | O => Ok s
  | S k' =>
      if i <? max_timers then
        do v <- get (timers s) i;
        if v <? 0 then update_from k' (i + 1) s
        else if v <? ticks s then
          do l <- set (timers s) i (-1);
          do s1 <- ring (mkT l (ticks s) (flow s) (seen s)) i;
          update_from k' (i + 1) s1
        else update_from k' (i + 1) s
      else Ok s
  end.
Definition update (s : st) : outcome st :=
  do s1 <- update_from (Z.to_nat max_timers) 1 (mkT (timers s) (ticks s) (flow s) (Looking (ticks s) :: seen s));
  Ok (mkT (timers s1) (ticks s1) (flow s1) (Looked (ticks s1) :: seen s1)).

(** What happens in the loop (media.c 1401-1755), with the time it happens: the program sends [timer:after:], the timers are
    looked at (1427, 1429), a frame is drawn (1723: the clock is read) *)
Inductive act := Ask (time : Z) (no ms : num) | Look (time : Z) | Frame (time : Z).
Definition time_of (a : act) : Z := match a with Ask t _ _ => t | Look t => t | Frame t => t end.
Definition step (s : st) (a : act) : outcome st :=
  match a with
  | Ask _ no ms => timer s no ms
  | Look _ => update s
  | Frame t => Ok (mkT (timers s) t (flow s) (seen s))
  end.
Fixpoint run (s : st) (l : list act) : outcome st :=
  match l with [] => Ok s | a :: r => do s1 <- step s a; run s1 r end.
End Loop.

(** The timers as [ctr_internal_media_reset] means to leave them, at the start of the program *)
Definition start : st := mkT (0 :: repeat (-1) 99) 0 false [].
