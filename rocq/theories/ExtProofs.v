(** Proofs about commands, replies, the command line and plug-ins. *)
From Verif Require Import Common Txt TextSpec NumModel NumProofs ErrSpec ErrModel ErrProofs ExtSpec ExtModel.
From Coq Require Import String.
Local Open Scope N_scope.

(** ** Commands *)
Lemma first_line t c : printf (lit "%s '%s'") [Str t; Str c] = Ok (quoted_line t c). Proof. reflexivity. Qed.
Lemma second_line c : printf (lit "%s %s") [Str []; Str c] = Ok (plain_line c).
Proof. change (printf (lit "%s %s") [Str []; Str c]) with (Ok ([] ++ 32 :: c ++ [])%list). cbn [app]. now rewrite app_nil_r. Qed.
Lemma ext_first st ran t c : external_command st ran t (lit "/usr/bin/x-terminal-emulator -e") c None =
  Ok (if fits1 (terminal_of t) c then ((ran ++ [quoted_line (terminal_of t) c])%list, (st ran (quoted_line (terminal_of t) c) =? 0)%Z) else (ran, false)).
Proof.
  unfold external_command, fits1. fold (terminal_of t). change (List.length (lit "%s '%s'")) with 7%nat.
  destruct (Nat.leb_spec 500 (7 + List.length (terminal_of t) + List.length c)) as [L|L]; cbn [negb]; [reflexivity|]. rewrite first_line. cbn [obind].
  assert (LL : List.length (quoted_line (terminal_of t) c) = (List.length (terminal_of t) + (List.length c + 3))%nat) by (unfold quoted_line; rewrite !app_length; cbn; lia).
  rewrite LL. destruct (Nat.ltb_spec (List.length (terminal_of t) + (List.length c + 3)) 500); [reflexivity|lia].
Qed.
Lemma ext_second st ran c : external_command st ran None [] c (Some (lit "%s %s")) =
  Ok (if fits2 c then ((ran ++ [plain_line c])%list, (st ran (plain_line c) =? 0)%Z) else (ran, false)).
Proof.
  unfold external_command, fits2. change (List.length (lit "%s %s")) with 5%nat. change (List.length (@nil N)) with 0%nat. rewrite Nat.add_0_r.
  destruct (Nat.leb_spec 500 (5 + List.length c)) as [L|L]; cbn [negb]; [reflexivity|]. rewrite second_line. cbn [obind].
  change (List.length (plain_line c)) with (S (List.length c)). destruct (Nat.ltb_spec (S (List.length c)) 500); [reflexivity|lia].
Qed.
Lemma no_nul_stripped t : no_nul t -> cstring t = t.
Proof. induction 1 as [|c t C _ IH]; [reflexivity|]. unfold cstring in *. cbn [filter]. apply N.eqb_neq in C. rewrite C. cbn [negb]. now rewrite IH. Qed.
Lemma system_ok st t c : no_nul c -> exists ran ok, media_system st t c = Ok (ran, ok) /\
  (ok = true <-> exists before line, ran = (before ++ [line])%list /\ st before line = 0%Z) /\
  (ran = (if fits1 (terminal_of t) c then [quoted_line (terminal_of t) c] else []) ++
         (if fits1 (terminal_of t) c && (st [] (quoted_line (terminal_of t) c) =? 0)%Z then [] else if fits2 c then [plain_line c] else []))%list.
Proof.
  intros NN. unfold media_system. rewrite (no_nul_stripped c NN), ext_first. cbn [obind]. destruct (fits1 (terminal_of t) c).
  - cbn [andb app]. set (l1 := quoted_line (terminal_of t) c). destruct (st [] l1 =? 0)%Z eqn:E.
    + exists [l1], true. split; [reflexivity|]. split; [|reflexivity]. split; [|reflexivity]. intros _. exists [], l1. split; [reflexivity|]. now apply Z.eqb_eq.
    + rewrite ext_second. destruct (fits2 c).
      * exists [l1; plain_line c], (st [l1] (plain_line c) =? 0)%Z. split; [reflexivity|]. split; [|reflexivity]. rewrite Z.eqb_eq. split.
        -- intros H. exists [l1], (plain_line c). auto.
        -- intros (b & l & H & Z0). change [l1; plain_line c] with ([l1] ++ [plain_line c])%list in H. apply app_inj_tail in H. destruct H as [<- <-]. exact Z0.
      * exists [l1], false. split; [reflexivity|]. split; [|reflexivity]. split; [discriminate|]. intros (b & l & H & Z0).
        change [l1] with ([] ++ [l1])%list in H. apply app_inj_tail in H. destruct H as [<- <-]. apply Z.eqb_neq in E. contradiction.
  - cbn [andb app]. rewrite ext_second. destruct (fits2 c).
    + exists [plain_line c], (st [] (plain_line c) =? 0)%Z. split; [reflexivity|]. split; [|reflexivity]. rewrite Z.eqb_eq. split.
      * intros H. exists [], (plain_line c). auto.
      * intros (b & l & H & Z0). change [plain_line c] with ([] ++ [plain_line c])%list in H. apply app_inj_tail in H. destruct H as [<- <-]. exact Z0.
    + exists [], false. split; [reflexivity|]. split; [|reflexivity]. split; [discriminate|]. intros (b & l & H & _). destruct b; discriminate.
Qed.
(** *** Words *)
Lemma words_app a : forall w r, unquoted a -> words_from false w (a ++ 32 :: r) = (words_from false w a ++ words_from false None r)%list.
Proof.
  induction a as [|c a IH]; intros w r U; cbn [app words_from].
  - change (32 =? 32) with true. destruct w; reflexivity.
  - inversion U as [|? ? C U']; subst. destruct (c =? 32); [destruct w; cbn [app]; rewrite IH by exact U'; reflexivity|].
    destruct (N.eqb_spec c 39); [contradiction|]. apply IH, U'.
Qed.
Lemma words_quoted c : forall u, unquoted c -> words_from true (Some u) (c ++ [39])%list = [(u ++ c)%list].
Proof.
  induction c as [|x c IH]; intros u U; cbn [app words_from].
  - change (39 =? 39) with true. cbn [words_from]. now rewrite app_nil_r.
  - inversion U as [|? ? X U']; subst. destruct (N.eqb_spec x 39); [contradiction|]. rewrite IH by exact U'. cbn [so_far]. now rewrite <- app_assoc.
Qed.
Lemma words_ok t c : unquoted t -> unquoted c -> shell_words (quoted_line t c) = (shell_words t ++ [c])%list.
Proof.
  intros T C. unfold shell_words, quoted_line. cbn [app]. rewrite (words_app t None (39 :: c ++ [39]) T). f_equal. cbn [words_from].
  change (39 =? 32) with false. change (39 =? 39) with true. cbv iota. cbn [so_far]. rewrite (words_quoted c [] C). reflexivity.
Qed.
Lemma system_once st t c : no_nul c -> (List.length (terminal_of t) + List.length c < 493)%nat -> unquoted (terminal_of t) -> unquoted c ->
  st [] (quoted_line (terminal_of t) c) = 0%Z ->
  exists line, media_system st t c = Ok ([line], true) /\ shell_words line = (shell_words (terminal_of t) ++ [c])%list.
Proof.
  intros NN L U1 U2 S0. exists (quoted_line (terminal_of t) c). split; [|apply words_ok; assumption].
  unfold media_system. rewrite (no_nul_stripped c NN), ext_first. unfold fits1.
  destruct (Nat.leb_spec 500 (7 + List.length (terminal_of t) + List.length c)); [lia|]. cbn [negb obind]. rewrite S0. reflexivity.
Qed.

(** ** Replies *)
Definition special (n : nat) : bool := (n =? 24)%nat || (n =? 56)%nat || (n =? 120)%nat.
Definition room (n : nat) : nat := if (n <? 10)%nat then 10%nat else if special n then S n else n.
Lemma block_size_room n : (10 <= n)%nat -> (block_size n - 8)%nat = room n.
Proof.
  intros L. unfold block_size, room, special. destruct (Nat.ltb_spec n 10); [lia|].
  replace (n + 8 =? 32)%nat with (n =? 24)%nat by (destruct (Nat.eqb_spec n 24), (Nat.eqb_spec (n + 8) 32); lia || reflexivity).
  replace (n + 8 =? 64)%nat with (n =? 56)%nat by (destruct (Nat.eqb_spec n 56), (Nat.eqb_spec (n + 8) 64); lia || reflexivity).
  replace (n + 8 =? 128)%nat with (n =? 120)%nat by (destruct (Nat.eqb_spec n 120), (Nat.eqb_spec (n + 8) 128); lia || reflexivity).
  destruct (_ || _); lia.
Qed.
Lemma block_size_8 n : (8 <= block_size n)%nat. Proof. unfold block_size. destruct (_ || _); lia. Qed.
Lemma room_ge n : (n <= room n)%nat. Proof. unfold room. destruct (Nat.ltb_spec n 10); [lia|]. destruct (special n); lia. Qed.
Lemma room_le n : (10 <= n)%nat -> (room n <= S n)%nat. Proof. intros L. unfold room. destruct (Nat.ltb_spec n 10); [lia|]. destruct (special n); lia. Qed.
Lemma room_mono n m : (n < m)%nat -> (room n <= room m)%nat.
Proof. intros L. unfold room. destruct (Nat.ltb_spec n 10), (Nat.ltb_spec m 10); try lia; [destruct (special m); lia|]. destruct (special n), (special m); lia. Qed.
Definition holds (r : reply) (t : text) : Prop :=
  got r = List.length t /\ size r = Nat.max 10 (List.length t) /\ cells r = (t ++ repeat 0 (room (List.length t) - List.length t))%list.
Lemma holds_empty : holds empty []. Proof. vm_compute. auto. Qed.
Lemma holds_write r t d : holds r t -> exists r', write_callback r d = Ok r' /\ holds r' (t ++ d)%list.
Proof.
  intros (G & SZ & C). unfold write_callback. rewrite G, SZ. set (n := List.length t) in *. set (k := List.length d).
  assert (CL : List.length (cells r) = room n) by (rewrite C, app_length, repeat_length; fold n; pose proof (room_ge n); lia).
  assert (X : exists c s, (if (Nat.max 10 n <? k + n)%nat then (reallocate (cells r) (k + n), (k + n)%nat) else (cells r, Nat.max 10 n)) = (c, s) /\
              c = (t ++ repeat 0 (room (k + n) - n))%list /\ s = Nat.max 10 (k + n)).
  { destruct (Nat.ltb_spec (Nat.max 10 n) (k + n)) as [L|L].
    - eexists. eexists. split; [reflexivity|]. split; [|lia]. unfold reallocate. rewrite CL. pose proof (block_size_room (k + n) ltac:(lia)) as BR.
      pose proof (block_size_8 (k + n)). pose proof (room_mono n (k + n) ltac:(lia)) as RM. pose proof (room_ge n).
      destruct (Nat.leb_spec (block_size (k + n)) (room n + 8)) as [M|M].
      + rewrite C. fold n. do 2 f_equal. lia.
      + rewrite C, <- app_assoc, <- repeat_app. fold n. do 2 f_equal. lia.
    - eexists. eexists. split; [reflexivity|]. rewrite C. fold n. split; [|lia]. do 2 f_equal.
      destruct (Nat.eq_dec k 0) as [K|K]; [rewrite K; reflexivity|]. unfold room. destruct (Nat.ltb_spec n 10), (Nat.ltb_spec (k + n) 10); try lia.
      assert (k + n = 10)%nat by lia. replace (k + n)%nat with 10%nat by lia. reflexivity. }
  destruct X as (c & s & -> & CE & SE).
  assert (L2 : List.length c = room (k + n)) by (rewrite CE, app_length, repeat_length; fold n; pose proof (room_ge (k + n)); lia).
  rewrite L2. pose proof (room_ge (k + n)) as RG. destruct (Nat.leb_spec (n + k) (room (k + n))); [|lia].
  eexists. split; [reflexivity|]. unfold holds. cbn [got size cells]. rewrite app_length. fold n. fold k. split; [lia|]. split; [rewrite SE; f_equal; lia|].
  rewrite CE. rewrite firstn_app. fold n. rewrite Nat.sub_diag. cbn [firstn]. rewrite app_nil_r. unfold n at 1. rewrite firstn_all. rewrite <- app_assoc. f_equal. f_equal.
  rewrite skipn_app. fold n. rewrite skipn_all2 by (fold n; lia). cbn [app]. replace (n + k - n)%nat with k by lia.
  replace (room (k + n) - n)%nat with (k + (room (k + n) - (n + k)))%nat by lia. rewrite repeat_app. rewrite skipn_app, skipn_all2 by (rewrite repeat_length; lia).
  rewrite repeat_length, Nat.sub_diag. cbn [app skipn]. f_equal. f_equal. f_equal. lia.
Qed.
Lemma holds_all l : forall r t, holds r t -> exists r', write_all r l = Ok r' /\ holds r' (t ++ List.concat l)%list.
Proof.
  induction l as [|d l IH]; intros r t H; cbn [write_all List.concat]; [exists r; rewrite app_nil_r; auto|].
  destruct (holds_write r t d H) as (r1 & -> & H1). cbn [obind]. destruct (IH r1 _ H1) as (r2 & E & H2). exists r2. rewrite <- app_assoc in H2. auto.
Qed.
Lemma from_cstring_zero t k : no_nul t -> from_cstring (t ++ repeat 0 (S k)) = Ok t.
Proof. induction 1 as [|c t C _ IH]; [reflexivity|]. cbn [app from_cstring]. destruct c; [congruence|]. now rewrite IH. Qed.
Lemma from_cstring_none t : no_nul t -> from_cstring t = UB.
Proof. induction 1 as [|c t C _ IH]; [reflexivity|]. cbn [from_cstring]. destruct c; [congruence|]. now rewrite IH. Qed.
Lemma from_cstring_cut t u : no_nul t -> from_cstring (t ++ 0 :: u) = Ok t.
Proof. induction 1 as [|c t C _ IH]; [reflexivity|]. cbn [app from_cstring]. destruct c; [congruence|]. now rewrite IH. Qed.
Lemma received_short l : no_nul (List.concat l) -> (List.length (List.concat l) < 10)%nat \/ In (List.length (List.concat l)) [24; 56; 120]%nat -> text_received l = Ok (List.concat l).
Proof.
  intros NN LN. unfold text_received. destruct (holds_all l empty [] holds_empty) as (r & -> & G & S & C). cbn [obind app] in *. rewrite C.
  set (n := List.length (List.concat l)) in *. assert (R : exists k, (room n - n)%nat = Datatypes.S k).
  { unfold room. destruct (Nat.ltb_spec n 10); [exists (9 - n)%nat; lia|]. exists 0%nat. destruct LN as [LN|[E|[E|[E|[]]]]]; [lia| | |]; rewrite <- E; reflexivity. }
  destruct R as [k ->]. now apply from_cstring_zero.
Qed.
Lemma received_long l : no_nul (List.concat l) -> (10 <= List.length (List.concat l))%nat -> ~ In (List.length (List.concat l)) [24; 56; 120]%nat -> text_received l = UB.
Proof.
  intros NN LN NI. unfold text_received. destruct (holds_all l empty [] holds_empty) as (r & -> & G & S & C). cbn [obind app] in *. rewrite C.
  set (n := List.length (List.concat l)) in *. assert (R : (room n - n)%nat = 0%nat).
  { unfold room. destruct (Nat.ltb_spec n 10); [lia|]. assert (SP : special n = false).
    { unfold special. rewrite !orb_false_iff, !Nat.eqb_neq. repeat split; intros E; apply NI; rewrite E; cbn; auto. }
    rewrite SP. lia. }
  rewrite R. cbn [repeat]. rewrite app_nil_r. now apply from_cstring_none.
Qed.
Lemma received_cut l a b : List.concat l = (a ++ 0 :: b)%list -> no_nul a -> text_received l = Ok a.
Proof.
  intros E NN. unfold text_received. destruct (holds_all l empty [] holds_empty) as (r & -> & G & S & C). cbn [obind app] in *. rewrite C, E, <- app_assoc. cbn [app].
  now apply from_cstring_cut.
Qed.

(** ** The command line *)
Definition does (s : settings) (w : wish) : Prop :=
  match w, s with
  | Welcome, Exit c => c = 0%Z
  | Usage_translate, Exit c | Usage_dictionary, Exit c => c = 1%Z
  | Run f, Start m sandbox input _ _ _ => m = 0%Z /\ sandbox = false /\ input = Some f
  | Guarded f, Start m sandbox input _ _ _ => m = 0%Z /\ sandbox = true /\ input = Some f
  | Tree f, Start m _ input _ _ _ => m = 3%Z /\ input = Some f
  | Translate d f, Start m _ input dict _ _ => m = 1%Z /\ input = Some f /\ dict = Some d
  | Dictionary f1 f2, Start m _ _ _ h1 h2 => m = 2%Z /\ h1 = Some f1 /\ h2 = Some f2
  | _, _ => False
  end.
Definition short (t : text) : Prop := (List.length t <= 254)%nat.
Lemma short_firstn t : short t -> firstn 254 t = t. Proof. apply firstn_all2. Qed.
Lemma not_option f : ~ option_like f -> begins f 45 120 = false /\ begins f 45 103 = false /\ begins f 45 116 = false /\ begins f 45 115 = false.
Proof.
  intros H. assert (X : forall c, In c [120; 103; 116; 115] -> begins f 45 c = false).
  { intros c I. destruct (begins f 45 c) eqn:E; [|reflexivity]. exfalso. apply H. destruct f as [|x [|y r]]; try discriminate. cbn [begins] in E.
    apply andb_prop in E. destruct E as [E1 E2]. apply N.eqb_eq in E1, E2. subst x y. exists c, r. auto. }
  repeat split; apply X; cbn; auto.
Qed.
Lemma cli_ok argv w : asks argv w -> Forall short argv -> exists s, cli_read_args argv = Ok s /\ does s w.
Proof.
  intros A F. destruct A as [p|p f r NO|p f r|p f r|p d f r|p f1 f2 r|p r L|p r L].
  - eexists. split; [reflexivity|reflexivity].
  - destruct (not_option f NO) as (B1 & B2 & B3 & B4). unfold cli_read_args. cbn [List.length nth_error Nat.eqb]. rewrite B1, B2, B3, B4. cbn [andb obind].
    unfold copied. cbn [nth_error obind]. inversion F as [|? ? _ F1]; subst. inversion F1 as [|? ? S1 _]; subst. rewrite (short_firstn f S1). eexists. split; [reflexivity|cbn; auto].
  - unfold cli_read_args. cbn [List.length nth_error Nat.eqb begins N.eqb Pos.eqb andb obind copied]. inversion F as [|? ? _ F1]; subst. inversion F1 as [|? ? _ F2]; subst.
    inversion F2 as [|? ? S1 _]; subst. rewrite (short_firstn f S1). eexists. split; [reflexivity|cbn; auto].
  - unfold cli_read_args. cbn [List.length nth_error Nat.eqb begins N.eqb Pos.eqb andb obind copied]. inversion F as [|? ? _ F1]; subst. inversion F1 as [|? ? _ F2]; subst.
    inversion F2 as [|? ? S1 _]; subst. rewrite (short_firstn f S1). eexists. split; [reflexivity|cbn; auto].
  - unfold cli_read_args. cbn [List.length nth_error Nat.eqb begins N.eqb Pos.eqb andb obind copied Nat.ltb Nat.leb]. inversion F as [|? ? _ F1]; subst. inversion F1 as [|? ? _ F2]; subst.
    inversion F2 as [|? ? S1 F3]; subst. inversion F3 as [|? ? S2 _]; subst. rewrite (short_firstn d S1), (short_firstn f S2). eexists. split; [reflexivity|cbn; auto].
  - unfold cli_read_args. cbn [List.length nth_error Nat.eqb begins N.eqb Pos.eqb andb obind copied Nat.ltb Nat.leb]. inversion F as [|? ? _ F1]; subst. inversion F1 as [|? ? _ F2]; subst.
    inversion F2 as [|? ? S1 F3]; subst. inversion F3 as [|? ? S2 _]; subst. rewrite (short_firstn f1 S1), (short_firstn f2 S2). eexists. split; [reflexivity|cbn; auto].
  - destruct r as [|a [|b r]]; [| |cbn in L; lia]; eexists; (split; [reflexivity|reflexivity]).
  - destruct r as [|a [|b r]]; [| |cbn in L; lia]; eexists; (split; [reflexivity|reflexivity]).
Qed.
Lemma memory_ok mb gc share : (forall m, mb = Some m -> 0 <= m <= 2147)%Z -> (forall s, share = Some s -> 1 <= s <= 127)%Z ->
  exists limit pool, memory_settings mb gc share = Ok (limit, pool) /\ limit = (match mb with Some m => m | None => 10 end * 1000000)%Z /\
    forall p, pool = Some p -> p = (limit / match share with Some s => s | None => 2 end)%Z /\ (0 <= p <= limit)%Z.
Proof.
  intros M S. unfold memory_settings.
  assert (X : exists limit, match mb with None => Ok 10000000%Z | Some m => if in_int (m * 1000000) then Ok ((m * 1000000) mod 2 ^ 64)%Z else UB end = Ok limit /\
              limit = (match mb with Some m => m | None => 10 end * 1000000)%Z /\ (0 <= limit)%Z).
  { destruct mb as [m|]; [|exists 10000000%Z; split; [reflexivity|split; [reflexivity|lia]]]. specialize (M m eq_refl).
    assert (I : in_int (m * 1000000) = true) by (apply in_int_iff; lia). rewrite I. exists (m * 1000000)%Z. split; [|split; [reflexivity|lia]]. f_equal. apply Z.mod_small. lia. }
  destruct X as (limit & -> & EL & POS). cbn [obind].
  set (ratio := match share with None => 2%Z | Some s => _ end). assert (RA : ratio = match share with Some s => s | None => 2%Z end /\ (1 <= ratio <= 127)%Z).
  { unfold ratio. destruct share as [s|]; [|split; [reflexivity|lia]]. specialize (S s eq_refl). rewrite Z.mod_small by lia. split; lia. }
  destruct RA as [RA RB]. exists limit. destruct (Z.testbit _ 3).
  - destruct (Z.eqb_spec ratio 0) as [|_]; [lia|]. eexists. split; [reflexivity|]. split; [exact EL|]. intros p [= <-]. rewrite (Z.mod_small ratio) by lia. rewrite RA in *.
    split; [reflexivity|]. split; [apply Z.div_pos; lia|]. apply Z.div_le_upper_bound; nia.
  - eexists. split; [reflexivity|]. split; [exact EL|]. discriminate.
Qed.

(** ** Plug-ins *)
Lemma lowered_ok t : Forall (fun c => c < 128) t -> exists u, lowered t = Ok u /\ Forall2 small t u.
Proof.
  induction 1 as [|c t C _ IH]; [exists []; split; [reflexivity|constructor]|]. destruct IH as (u & E & F). cbn [lowered]. unfold to_lower.
  apply N.ltb_lt in C. rewrite C. cbn [obind]. rewrite E. cbn [obind]. eexists. split; [reflexivity|]. constructor; [|exact F]. unfold small.
  destruct (N.leb_spec 65 c), (N.leb_spec c 90); cbn [andb]; lia.
Qed.
Lemma small_clean c d : small c d -> c <> 0 -> d <> 0. Proof. unfold small. lia. Qed.
Lemma plugin_ok name : no_nul name -> Forall (fun c => c < 128) name -> (List.length name <= 504)%nat ->
  exists low, Forall2 small name low /\ plugin_path name = Ok (lit "mods/" ++ low ++ lit "/libctr" ++ low ++ lit ".so")%list.
Proof.
  intros NN A L. unfold plugin_path. rewrite (no_nul_stripped name NN). destruct (lowered_ok name A) as (low & -> & F). cbn [obind]. exists low. split; [exact F|].
  assert (LL : List.length low = List.length name) by (clear -F; induction F; cbn; congruence).
  unfold snprintf. change (printf (lit "mods/%s/libctr%s.so") [Str low; Str low]) with (Ok (lit "mods/" ++ low ++ lit "/libctr" ++ low ++ lit ".so")%list). cbn [obind].
  f_equal. apply firstn_all2. rewrite !app_length, LL. change (List.length (lit "mods/")) with 5%nat. change (List.length (lit "/libctr")) with 7%nat. change (List.length (lit ".so")) with 3%nat. lia.
Qed.
Lemma small_inj t : forall u v, Forall2 small t u -> Forall2 small t v -> u = v.
Proof.
  induction t as [|c t IH]; intros u v F G; inversion F as [|? d ? u' D F']; inversion G as [|? e ? v' E G']; subst; [reflexivity|].
  f_equal; [unfold small in D, E; lia|apply IH; assumption].
Qed.
Lemma plugin_same n1 n2 p : no_nul n1 -> no_nul n2 -> Forall (fun c => c < 128) n1 -> Forall (fun c => c < 128) n2 -> (List.length n1 <= 504)%nat -> (List.length n2 <= 504)%nat ->
  plugin_path n1 = Ok p -> (plugin_path n2 = Ok p <-> exists low, Forall2 small n1 low /\ Forall2 small n2 low).
Proof.
  intros N1 N2 A1 A2 L1 L2 E. destruct (plugin_ok n1 N1 A1 L1) as (l1 & F1 & E1). destruct (plugin_ok n2 N2 A2 L2) as (l2 & F2 & E2).
  assert (OK : forall a b : text, Ok a = Ok b -> a = b) by (intros a b [= ->]; reflexivity). rewrite E1 in E. apply OK in E. subst p. rewrite E2. split.
  - intros X. exists l1. split; [exact F1|]. apply OK in X. rename X into Y.
    apply app_inv_head in Y. assert (LL : List.length l2 = List.length l1).
    { apply (f_equal (@List.length N)) in Y. rewrite !app_length in Y. lia. }
    assert (Z : l2 = l1); [|now rewrite <- Z].
    clear -Y LL. revert Y. generalize (lit "/libctr" ++ l2 ++ lit ".so")%list (lit "/libctr" ++ l1 ++ lit ".so")%list. revert l1 LL.
    induction l2 as [|c l2 IH]; intros [|d l1] LL r1 r2 Y; try discriminate; [reflexivity|]. cbn [app] in Y. injection Y as -> Y. f_equal. eapply IH; [now injection LL|exact Y].
  - intros (low & G1 & G2). now rewrite (small_inj n1 l1 low F1 G1), (small_inj n2 l2 low F2 G2).
Qed.
