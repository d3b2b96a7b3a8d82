(** Claims C117, C118 and C119. *)
From Verif Require Import Common Txt TextSpec NumModel ErrModel ErrProofs ExtSpec ExtModel ExtProofs.
From Coq Require Import String.
Local Open Scope N_scope.

(** ** C117: commands for the operating system *)
(** No command, however long, and no TERMINAL writes outside the buffer; True is answered exactly if the last line that was run ended well;
    the lines that are run are the command in a terminal and the command alone. *)
Theorem C117_lines : forall status terminal c, no_nul c -> exists ran ok, media_system status terminal c = Ok (ran, ok) /\
  (ok = true <-> exists before line, ran = (before ++ [line])%list /\ status before line = 0%Z) /\
  (ran = (if fits1 (terminal_of terminal) c then [quoted_line (terminal_of terminal) c] else []) ++
         (if fits1 (terminal_of terminal) c && (status [] (quoted_line (terminal_of terminal) c) =? 0)%Z then [] else if fits2 c then [plain_line c] else []))%list.
Proof. exact system_ok. Qed.
Print Assumptions C117_lines.
(** A command without quotes, that fits and succeeds, runs once; the terminal gets it as one word. *)
Theorem C117_once_partial : forall status terminal c, no_nul c -> (List.length (terminal_of terminal) + List.length c < 493)%nat ->
  unquoted (terminal_of terminal) -> unquoted c -> status [] (terminal_of terminal ++ lit " '" ++ c ++ lit "'")%list = 0%Z ->
  exists line, media_system status terminal c = Ok ([line], true) /\ shell_words line = (shell_words (terminal_of terminal) ++ [c])%list.
Proof. exact system_once. Qed.
Print Assumptions C117_once_partial.
Example C117_example : no_nul (lit "ls -l /tmp") /\ unquoted (lit "ls -l /tmp") /\
  media_system (fun _ _ => 0%Z) (Some (lit "xterm -e")) (lit "ls -l /tmp") = Ok ([lit "xterm -e 'ls -l /tmp'"], true) /\
  shell_words (lit "xterm -e 'ls -l /tmp'") = [lit "xterm"; lit "-e"; lit "ls -l /tmp"].
Proof. split; [vm_compute; repeat constructor; discriminate|]. split; [vm_compute; repeat constructor; discriminate|]. vm_compute. auto. Qed.
(** A command that fails in its terminal is run again. *)
Theorem C117_twice_refuted : exists status terminal c, unquoted c /\
  media_system status terminal c = Ok ([lit "xterm -e 'rm a; false'"; lit " rm a; false"], false).
Proof. exists (fun _ _ => 1%Z), (Some (lit "xterm -e")), (lit "rm a; false"). split; [vm_compute; repeat constructor; discriminate|reflexivity]. Qed.
Print Assumptions C117_twice_refuted.
(** A command with quotes does not arrive as it is. *)
Theorem C117_quotes_refuted : exists status terminal c line, media_system status terminal c = Ok ([line], true) /\
  shell_words line = [lit "xterm"; lit "-e"; lit "echo a"; lit "b"] /\ c = lit "echo 'a b'".
Proof. exists (fun _ _ => 0%Z), (Some (lit "xterm -e")), (lit "echo 'a b'"). eexists. split; [vm_compute; reflexivity|]. vm_compute. auto. Qed.
Print Assumptions C117_quotes_refuted.
(** A command of 495 bytes or more is not run at all. *)
Theorem C117_long : forall status terminal c, no_nul c -> (495 <= List.length c)%nat -> media_system status terminal c = Ok ([], false).
Proof.
  intros status terminal c NN L. destruct (system_ok status terminal c NN) as (ran & ok & E & _ & R). rewrite E.
  assert (F1 : fits1 (terminal_of terminal) c = false) by (unfold fits1; destruct (Nat.leb_spec 500 (7 + List.length (terminal_of terminal) + List.length c)); [reflexivity|lia]).
  assert (F2 : fits2 c = false) by (unfold fits2; destruct (Nat.leb_spec 500 (5 + List.length c)); [reflexivity|lia]).
  rewrite F1, F2 in R. cbn [andb app] in R. subst ran. unfold media_system in E. rewrite (no_nul_stripped c NN), ext_first, F1 in E. cbn [obind] in E.
  rewrite ext_second, F2 in E. congruence.
Qed.
Print Assumptions C117_long.
Theorem C117_long_refuted : exists c, unquoted c /\ forall status terminal, media_system status terminal c = Ok ([], false).
Proof.
  exists (repeat 97 495). split; [apply Forall_forall; intros c I; apply repeat_spec in I; subst c; discriminate|]. intros status terminal. apply C117_long.
  - apply Forall_forall. intros c I. apply repeat_spec in I. subst c. discriminate.
  - rewrite repeat_length. lia.
Qed.
Print Assumptions C117_long_refuted.

(** ** C118: replies from the network *)
(** A reply of less than 10 bytes (or of 24, 56 or 120) arrives as it is, in whatever pieces it comes. *)
Theorem C118_short_partial : forall l, no_nul (List.concat l) -> (List.length (List.concat l) < 10)%nat \/ In (List.length (List.concat l)) [24; 56; 120]%nat ->
  text_received l = Ok (List.concat l).
Proof. exact received_short. Qed.
Print Assumptions C118_short_partial.
(** A reply with a NUL ends there. *)
Theorem C118_nul : forall l a b, List.concat l = (a ++ 0 :: b)%list -> no_nul a -> text_received l = Ok a.
Proof. exact received_cut. Qed.
Print Assumptions C118_nul.
(** Every piece is stored inside the block and behind the pieces before it. *)
Theorem C118_collected : forall l, exists r, write_all empty l = Ok r /\ got r = List.length (List.concat l) /\ firstn (got r) (cells r) = List.concat l.
Proof.
  intros l. destruct (holds_all l empty [] holds_empty) as (r & E & G & _ & C). cbn [app] in *. exists r. split; [exact E|]. split; [exact G|].
  rewrite C, G, firstn_app, Nat.sub_diag, firstn_all. cbn [firstn]. apply app_nil_r.
Qed.
Print Assumptions C118_collected.
Example C118_example : text_received [lit "4"; []; lit "2 EUR"] = Ok (lit "42 EUR") /\ text_received [lit "0123456789"; lit "01234567890123"] = Ok (lit "012345678901234567890123").
Proof. vm_compute. auto. Qed.
(** Every other reply is read beyond the end of its block. *)
Theorem C118_overread_refuted : (exists l, text_received l = UB) /\
  forall l, no_nul (List.concat l) -> (10 <= List.length (List.concat l))%nat -> ~ In (List.length (List.concat l)) [24; 56; 120]%nat -> text_received l = UB.
Proof. split; [exists [lit "hello, world"]; reflexivity|exact received_long]. Qed.
Print Assumptions C118_overread_refuted.

(** ** C119: the command line, the environment, plug-ins *)
(** With names of at most 254 bytes Citrine does what the command line asks for. *)
Theorem C119_command_line_partial : forall argv w, asks argv w -> Forall (fun t => List.length t <= 254)%nat argv -> exists s, cli_read_args argv = Ok s /\ does s w.
Proof. exact cli_ok. Qed.
Print Assumptions C119_command_line_partial.
(** The memory limit and the share of the pools are what the environment says. *)
Theorem C119_memory_partial : forall mb gc share, (forall m, mb = Some m -> 0 <= m <= 2147)%Z -> (forall s, share = Some s -> 1 <= s <= 127)%Z ->
  exists limit pool, memory_settings mb gc share = Ok (limit, pool) /\ limit = (match mb with Some m => m | None => 10 end * 1000000)%Z /\
    forall p, pool = Some p -> p = (limit / match share with Some s => s | None => 2 end)%Z /\ (0 <= p <= limit)%Z.
Proof. exact memory_ok. Qed.
Print Assumptions C119_memory_partial.
(** The file of a plug-in: the name in small letters, twice. *)
Theorem C119_plugin_partial : forall name, no_nul name -> Forall (fun c => c < 128) name -> (List.length name <= 504)%nat ->
  exists low, Forall2 small name low /\ plugin_path name = Ok (lit "mods/" ++ low ++ lit "/libctr" ++ low ++ lit ".so")%list.
Proof. exact plugin_ok. Qed.
Print Assumptions C119_plugin_partial.
(** Two names share a plug-in exactly if they differ in the case of letters only. *)
Theorem C119_same_plugin_partial : forall n1 n2 p, no_nul n1 -> no_nul n2 -> Forall (fun c => c < 128) n1 -> Forall (fun c => c < 128) n2 ->
  (List.length n1 <= 504)%nat -> (List.length n2 <= 504)%nat ->
  plugin_path n1 = Ok p -> (plugin_path n2 = Ok p <-> exists low, Forall2 small n1 low /\ Forall2 small n2 low).
Proof. exact plugin_same. Qed.
Print Assumptions C119_same_plugin_partial.
Example C119_example :
  asks [lit "ctren"; lit "-t"; lit "ennl.dict"; lit "a.ctr"] (Translate (lit "ennl.dict") (lit "a.ctr")) /\
  cli_read_args [lit "ctren"; lit "-t"; lit "ennl.dict"; lit "a.ctr"] = Ok (Start 1 false (Some (lit "a.ctr")) (Some (lit "ennl.dict")) None None) /\
  asks [lit "ctren"; lit "a.ctr"] (Run (lit "a.ctr")) /\
  memory_settings (Some 64%Z) (Some 9%Z) None = Ok (64000000%Z, Some 32000000%Z) /\
  plugin_path (lit "Percolator") = Ok (lit "mods/percolator/libctrpercolator.so").
Proof.
  split; [apply a_translate|]. split; [reflexivity|]. split; [apply a_run; intros (c & r & E & _); discriminate|]. split; [reflexivity|]. vm_compute. reflexivity.
Qed.
(** The options -s and -x without a file read a null pointer. *)
Theorem C119_missing_refuted : exists argv, cli_read_args argv = UB /\ argv = [lit "ctren"; lit "-s"] /\ cli_read_args [lit "ctren"; lit "-x"] = UB.
Proof. exists [lit "ctren"; lit "-s"]. vm_compute. auto. Qed.
Print Assumptions C119_missing_refuted.
(** A longer name is cut: another file is run. *)
Theorem C119_cut_refuted : exists f g, f <> g /\ ~ option_like f /\ cli_read_args [lit "ctren"; f] = Ok (Start 0 false (Some g) None None None).
Proof.
  exists (repeat 97 300), (repeat 97 254). split; [intros E; apply (f_equal (@List.length N)) in E; rewrite !repeat_length in E; lia|].
  split; [intros (c & r & E & _); discriminate|]. vm_compute. reflexivity.
Qed.
Print Assumptions C119_cut_refuted.
(** A file whose name begins like an option is taken for the option. *)
Theorem C119_prefix_refuted : exists argv, argv = [lit "ctren"; lit "-start.ctr"; lit "b.ctr"] /\ cli_read_args argv = Ok (Start 0 true (Some (lit "b.ctr")) None None None).
Proof. eexists. split; [reflexivity|]. vm_compute. reflexivity. Qed.
Print Assumptions C119_prefix_refuted.
(** A limit of 2148 MB overflows an int; a share of 0 (or 256) divides by zero; a share of 128 gives pools of no size. *)
Theorem C119_memory_refuted : exists mb zero many limit, memory_settings (Some mb) None None = UB /\ mb = 2148%Z /\
  memory_settings None (Some 8%Z) (Some zero) = UB /\ (zero = 256)%Z /\ memory_settings None (Some 8%Z) (Some many) = Ok (limit, Some 0%Z) /\ (0 < many <= limit)%Z.
Proof. exists 2148%Z, 256%Z, 128%Z, 10000000%Z. repeat split. discriminate. Qed.
Print Assumptions C119_memory_refuted.
(** A name that is not ASCII is outside the domain of [tolower]; two long names share a file that ends anywhere. *)
Theorem C119_plugin_refuted : (exists name, plugin_path name = UB /\ name = lit "é") /\
  exists n1 n2 p, ~ (exists low, Forall2 small n1 low /\ Forall2 small n2 low) /\ plugin_path n1 = Ok p /\ plugin_path n2 = Ok p.
Proof.
  split; [exists (lit "é"); split; [vm_compute; reflexivity|reflexivity]|]. exists (repeat 97 1020 ++ [98])%list, (repeat 97 1020 ++ [99])%list, (lit "mods/" ++ repeat 97 1018)%list.
  split; [|split; vm_compute; reflexivity]. intros (low & A & B). assert (X : last low 0 = 98 /\ last low 0 = 99); [|destruct X; congruence].
  split.
  - apply Forall2_app_inv_l in A. destruct A as (x & y & _ & Y & ->). inversion Y as [|? d ? y' D Y']; subst. inversion Y'; subst. rewrite last_last. unfold small in D. lia.
  - apply Forall2_app_inv_l in B. destruct B as (x & y & _ & Y & ->). inversion Y as [|? d ? y' D Y']; subst. inversion Y'; subst. rewrite last_last. unfold small in D. lia.
Qed.
Print Assumptions C119_plugin_refuted.
