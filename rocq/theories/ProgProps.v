(** Claims about the Program object. *)
From Coq Require Import String QArith.
From Verif Require Import Common Txt NumModel FileModel FloatSpec NumSpec FileSpec ProgModel ProgSpec ProgProofs.
Import ListNotations.
Local Open Scope Z_scope.
Local Notation "'tx' s" := (lit s%string) (at level 8, s at level 0).

(** * C49 *)
(** Full claim: every unit of [unit_bytes] and every number; without [GB]
    ([C49_unit_refuted]), for whole numbers ([C49_fraction_refuted]) and limits below 2^64
    ([C49_large_refuted]). *)
Theorem C49_limit_partial : forall x n u k, finite x -> (SF2Q x == inject_Z n)%Q -> 0 <= n ->
  unit_bytes u k -> u <> Some [71; 66]%N -> n * k < W64 -> setmemlimit x u = Ok (n * k).
Proof. exact memlimit_exact. Qed.
Print Assumptions C49_limit_partial.
Example C49_example : setmemlimit (of_Z 8) (Some (tx "MB")) = Ok 8000000 /\
  unit_bytes (Some (tx "MB")) 1000000 /\ finite (of_Z 8) /\ (SF2Q (of_Z 8) == inject_Z 8)%Q.
Proof. split; [reflexivity|]. split; [constructor|]. split; [split; [reflexivity|vm_compute; discriminate]|reflexivity]. Qed.
Print Assumptions C49_example.
Theorem C49_range : forall x u l, setmemlimit x u = Ok l -> 0 <= l < W64.
Proof. exact memlimit_range. Qed.
Print Assumptions C49_range.
(** [Program memory: 1 GB.] sets one byte. *)
Theorem C49_unit_refuted : exists x u k, finite x /\ (SF2Q x == inject_Z 1)%Q /\ unit_bytes u k /\ k = 1000000000 /\
  setmemlimit x u = Ok 1.
Proof.
  exists (of_Z 1), (Some [71; 66]%N), 1000000000. split; [split; [reflexivity|vm_compute; discriminate]|].
  split; [reflexivity|]. split; [constructor|]. split; reflexivity.
Qed.
Print Assumptions C49_unit_refuted.
(** [Program memory: 1.5 MB.] sets one million bytes. *)
Theorem C49_fraction_refuted : exists x, finite x /\ (SF2Q x * 1000000 == inject_Z 1500000)%Q /\
  setmemlimit x (Some (tx "MB")) = Ok 1000000.
Proof.
  exists (div64 (of_Z 3) (of_Z 2)). split; [split; [reflexivity|vm_compute; discriminate]|]. split; vm_compute; reflexivity.
Qed.
Print Assumptions C49_fraction_refuted.
(** 18446744073710 MB wrap around; a negative number is undefined behaviour. *)
Theorem C49_large_refuted : exists x n, finite x /\ (SF2Q x == inject_Z n)%Q /\ n = 18446744073710 /\
  setmemlimit x (Some (tx "MB")) = Ok 448384.
Proof.
  exists (of_Z 18446744073710), 18446744073710. split; [split; [reflexivity|vm_compute; discriminate]|].
  split; [reflexivity|]. split; vm_compute; reflexivity.
Qed.
Print Assumptions C49_large_refuted.
Theorem C49_negative_refuted : exists x, finite x /\ (SF2Q x == inject_Z (-1))%Q /\ setmemlimit x None = UB.
Proof. exists (of_Z (-1)). split; [split; [reflexivity|vm_compute; discriminate]|]. split; reflexivity. Qed.
Print Assumptions C49_negative_refuted.

(** * C70 *)
(** Full claim: limits of any size and any share from 1; up to 2147 MB
    ([C70_limit_refuted]) and shares up to 127 ([C70_share_refuted]). *)
Theorem C70_startup_partial : forall lt mt st l m s, or_default lt 10 l -> or_default mt 1 m -> or_default st 2 s ->
  0 <= l <= 2147 -> 0 <= m <= INT_MAX -> 1 <= s <= 127 ->
  startup lt mt st = Ok (l * 1000000, m, if Z.testbit m 3 then Some (l * 1000000 / s) else None).
Proof. exact startup_exact. Qed.
Print Assumptions C70_startup_partial.
Example C70_example : in_digits (tx "64") 64 /\ in_digits (tx "9") 9 /\
  startup (Some (tx "64")) (Some (tx "9")) None = Ok (64000000, 9, Some 32000000).
Proof.
  assert (D : forall c, (48 <= c <= 57)%N -> digit c) by auto.
  split; [split; [discriminate|split; [repeat (apply Forall_cons; [apply D; vm_compute; split; discriminate|]); constructor|reflexivity]]|].
  split; [split; [discriminate|split; [repeat (apply Forall_cons; [apply D; vm_compute; split; discriminate|]); constructor|reflexivity]]|].
  vm_compute. reflexivity.
Qed.
Print Assumptions C70_example.
(** 2148 MB overflow an [int]. *)
Theorem C70_limit_refuted : startup (Some (tx "2148")) None None = UB.
Proof. vm_compute. reflexivity. Qed.
Print Assumptions C70_limit_refuted.
(** A share of 0 divides by zero; one of 128 becomes negative and leaves no pool. *)
Theorem C70_share_refuted : startup None (Some (tx "9")) (Some (tx "0")) = UB /\
  startup None (Some (tx "9")) (Some (tx "128")) = Ok (10000000, 9, Some 0).
Proof. split; vm_compute; reflexivity. Qed.
Print Assumptions C70_share_refuted.

(** * C71 *)
Theorem C71_argument : forall argv x n, finite x -> (SF2Q x == inject_Z (Z.of_nat n))%Q -> Z.of_nat n <= INT_MAX ->
  Z.of_nat (length argv) <= INT_MAX ->
  program_argument argv x = Ok (match n with O => None | S k => nth_error argv k end).
Proof. exact argument_at. Qed.
Print Assumptions C71_argument.
Theorem C71_argument_safe : forall argv x n, c_int x = Ok n -> exists r, program_argument argv x = Ok r /\
  (n < 1 \/ Z.of_nat (length argv) < n <-> r = None).
Proof. exact argument_safe. Qed.
Print Assumptions C71_argument_safe.
Example C71_example : program_argument [tx "ctr"; tx "a.ctr"; tx "x"] (of_Z 3) = Ok (Some (tx "x")) /\
  program_argument [tx "ctr"; tx "a.ctr"; tx "x"] (of_Z 4) = Ok None /\ c_int (of_Z 3) = Ok 3 /\
  finite (of_Z 3) /\ (SF2Q (of_Z 3) == inject_Z (Z.of_nat 3))%Q.
Proof.
  split; [reflexivity|]. split; [reflexivity|]. split; [reflexivity|].
  split; [split; [reflexivity|vm_compute; discriminate]|reflexivity].
Qed.
Print Assumptions C71_example.

(** * C72 *)
(** Full claim: all names and values; here for names that are not empty, without equals
    signs, and without NUL bytes in names and values (all needed, see below). *)
Theorem C72_settings_partial : forall hist env m, Forall good_setting hist -> good_name m ->
  program_get_env (fold_left (fun e nv => program_set_env e (fst nv) (snd nv)) hist env) m =
  fold_left (fun s nv => stored s (fst nv) (snd nv)) hist (program_get_env env) m.
Proof. exact settings_history. Qed.
Print Assumptions C72_settings_partial.
Example C72_example : good_setting (tx "TEST", Some (tx "123")) /\ good_name (tx "TEST") /\
  program_get_env (program_set_env [tx "SHELL=/bin/sh"] (tx "TEST") (Some (tx "123"))) (tx "TEST") = Some (tx "123") /\
  program_get_env (program_set_env [tx "SHELL=/bin/sh"] (tx "SHELL") None) (tx "SHELL") = None.
Proof.
  assert (G : good_name (tx "TEST")).
  { split; [discriminate|]. split; vm_compute; intuition discriminate. }
  split; [split; [exact G|]; vm_compute; intuition discriminate|]. split; [exact G|]. split; vm_compute; reflexivity.
Qed.
Print Assumptions C72_example.
(** A name with an equals sign is not set, without an error; and it may be found although
    never set. *)
Theorem C72_name_refuted :
  program_get_env (program_set_env [] (tx "A=B") (Some (tx "x"))) (tx "A=B") = None /\
  program_get_env (program_set_env [] (tx "A") (Some (tx "B=x"))) (tx "A=B") = Some (tx "x").
Proof. split; vm_compute; reflexivity. Qed.
Print Assumptions C72_name_refuted.
(** NUL bytes are dropped from values; in a name they are dropped when setting but end the
    name when asking. *)
Theorem C72_nul_refuted :
  program_get_env (program_set_env [] (tx "A") (Some [66; 0; 67]%N)) (tx "A") = Some (tx "BC") /\
  program_get_env (program_set_env [] [65; 0; 66]%N (Some (tx "x"))) [65; 0; 66]%N = None.
Proof. split; vm_compute; reflexivity. Qed.
Print Assumptions C72_nul_refuted.

Local Open Scope nat_scope.
(** * C73 *)
(** Full claim: also when the input ends without a line feed.  That is false
    ([C73_ask_refuted]). *)
Theorem C73_ask_partial : forall inp line rest fuel, Forall (fun c => (c < 256)%N /\ c <> 10%N) line ->
  (forall j, j < List.length (line ++ 10%N :: rest) -> inp j = Z.of_N (nth j (line ++ 10%N :: rest) 0%N)) ->
  List.length line < fuel -> program_ask fuel inp = Ok (Some line).
Proof. exact ask_line. Qed.
Print Assumptions C73_ask_partial.
(** At the end of the input [ask] waits forever (in fact until memory runs out). *)
Theorem C73_ask_refuted : exists inp : nat -> Z, (forall j, inp j = (-1)%Z) /\ forall fuel, program_ask fuel inp = Ok None.
Proof. exists (fun _ => (-1)%Z). split; [reflexivity|]. intros fuel. apply ask_never. intros j. discriminate. Qed.
Print Assumptions C73_ask_refuted.
Theorem C73_input : forall inp t, chomped inp t -> program_input inp = Some t.
Proof. exact input_all. Qed.
Print Assumptions C73_input.
(** Full claim: whatever the command writes; here without NUL bytes
    ([C73_shell_nul_refuted]), and for commands that could be started
    ([C73_shell_refuted]). *)
Theorem C73_shell_partial : forall popen cmd out, nul_free cmd -> popen cmd = Some out -> nul_free out ->
  program_shell popen cmd = Ok (Some out).
Proof. exact shell_output. Qed.
Print Assumptions C73_shell_partial.
Theorem C73_shell_nul_refuted : exists popen cmd out, nul_free cmd /\ popen cmd = Some out /\
  out = [65; 0; 66; 10; 67]%N /\ program_shell popen cmd = Ok (Some [65; 67]%N).
Proof.
  exists (fun _ => Some [65; 0; 66; 10; 67]%N), (tx "date"), [65; 0; 66; 10; 67]%N.
  split; [vm_compute; intuition discriminate|]. split; [reflexivity|]. split; vm_compute; reflexivity.
Qed.
Print Assumptions C73_shell_nul_refuted.
Theorem C73_shell_refuted : exists popen cmd, nul_free cmd /\ popen cmd = None /\ program_shell popen cmd = UB.
Proof.
  exists (fun _ => None), (tx "date"). split; [vm_compute; intuition discriminate|]. split; reflexivity.
Qed.
Print Assumptions C73_shell_refuted.
Example C73_example :
  program_ask 20 (fun j => Z.of_N (nth j (tx "a longer line" ++ [10%N]) 0%N)) = Ok (Some (tx "a longer line")) /\
  program_input (tx "ab" ++ [10%N]) = Some (tx "ab") /\ chomped (tx "ab" ++ [10%N]) (tx "ab") /\
  program_shell (fun _ => Some (tx "ab" ++ [10%N] ++ tx "cd")) (tx "date") = Ok (Some (tx "ab" ++ [10%N] ++ tx "cd")).
Proof. split; [vm_compute; reflexivity|]. split; [vm_compute; reflexivity|]. split; [constructor|]. vm_compute; reflexivity. Qed.
Print Assumptions C73_example.
