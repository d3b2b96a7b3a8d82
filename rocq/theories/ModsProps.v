(** Properties of the plugins Request and Json in the languages they are built for. *)
From Coq Require Import NArith List String Lia.
From Verif Require Import Common Fuel Txt TextSpec LexModel LexSpec ParseModel ParseSpec Dicts LangDicts MapModel MapSpec
  RegTable RegModel RegSpec RegCheck RegProofs RegProps ExtModel ModsModel ModsProofs.
Import ListNotations.
Open Scope list_scope.
Open Scope nat_scope.
Local Notation "'tx' s" := (lit s%string) (at level 8, s at level 0).

(** * C149 *)
(** Once a plugin is loaded, whatever the hash: its messages run their functions, those of Object still do unless the
    plugin has its own, its object is found, and so are all names of the main program. *)
Theorem C149_messages : forall b d ws hash, In b builds -> In (lit (b_language b), d) languages -> In (b_language b, ws) dictionaries ->
  exists w, sbegin hash d ws b = Ret w /\
  (forall fuel k f, 301 <= fuel -> In (k, f) (b_methods b) -> sfind_method hash fuel w (stext d ws k) = Ret (Some f)) /\
  (forall fuel k f, 301 <= fuel -> understands OObject k f -> (forall g, ~ In (SCore k, g) (b_methods b)) -> sfind_method hash fuel w (key_text d ws k) = Ret (Some f)) /\
  (forall fuel, 301 <= fuel -> sfind_name hash fuel w (lit (b_name b)) = Ret (Some None)) /\
  (forall fuel k o, 301 <= fuel -> In (k, o) globals -> sfind_name hash fuel w (key_text d ws k) = Ret (Some (Some o))).
Proof. exact mods_work. Qed.
Print Assumptions C149_messages.

(** Each of its messages can be written with as many arguments as the function reads, and the parser sends exactly that. *)
Theorem C149_send : forall b d ws k f, In b builds -> In (lit (b_language b), d) languages -> In (b_language b, ws) dictionaries ->
  In (k, f) (b_methods b) -> exists n, In (f, n) stakes /\ forall r tr sr args a c,
  prim d r tr -> piece d tr sr -> Forall (written_arg d (stext d ws k)) args -> List.length args = n ->
  exists s, parse d (sr ++ 32%N :: call (d_prefix d) (stext d ws k) (map snd args) ++ d_eol d) a c =
    POk [NExpr r [message (stext d ws k) (map (fun x => fst (fst x)) args)]] s /\ err s = false.
Proof.
  intros b d ws k f B L D I.
  assert (A : exists n, In (f, n) stakes).
  { clear -B I. unfold builds in B. cbn [In] in B. repeat (destruct B as [<-|B]; [cbn [b_methods request_nl request_us json_en json_hy In] in I;
      repeat (destruct I as [I|I]; [injection I as <- <-; eexists; unfold stakes; cbn [In]; tauto|]); destruct I|]). destruct B. }
  destruct A as (n & T). exists n. split; [exact T|]. intros. eapply mods_sends; eauto.
Qed.
Print Assumptions C149_send.

(** The name of its object can be written. *)
Theorem C149_name : forall b d ws, In b builds -> In (lit (b_language b), d) languages -> In (b_language b, ws) dictionaries ->
  prim d (NRef 0 (lit (b_name b))) [ref (lit (b_name b))] /\ piece d [ref (lit (b_name b))] (lit (b_name b)).
Proof. exact mods_names. Qed.
Print Assumptions C149_name.

(** A plugin is loaded when a name is used that is not known; the file is that of its object.
    Full statement: the same for every plugin.  Missing: the Json of Dutch, for which it is false. *)
Theorem C149_loaded_partial : forall b, In b builds -> b_path b <> "mods/jsonnl/libctrjsonnl.so"%string ->
  plugin_path (lit (b_name b)) = Ok (lit (b_path b)).
Proof. exact mods_path. Qed.
Print Assumptions C149_loaded_partial.

Example C149_armenian : exists b d ws, In b builds /\ In (lit (b_language b), d) languages /\ In (b_language b, ws) dictionaries /\
  b_name b = "Jsonhy"%string /\ In (SText "jsonify.", "ctr_json_jsonify")%string (b_methods b) /\ d_prefix d = 46%N /\
  b_path b <> "mods/jsonnl/libctrjsonnl.so"%string /\ plugin_path (tx "Jsonhy") = Ok (tx "mods/jsonhy/libctrjsonhy.so") /\
  exists k f, understands OObject k f /\ forall g, ~ In (SCore k, g) (b_methods b).
Proof.
  eexists (mkBuild _ _ _ json_hy), (dict_of "hy"), (words_of "hy"). split; [unfold builds; cbn [In]; do 4 right; left; reflexivity|]. cbn [b_language b_name b_methods b_path].
  split; [apply dict_of_in; vm_compute; reflexivity|]. split; [apply words_of_in; vm_compute; reflexivity|]. split; [reflexivity|].
  split; [cbn; tauto|]. split; [vm_compute; reflexivity|]. split; [discriminate|]. split; [vm_compute; reflexivity|].
  exists (Dict "NEW"), "ctr_object_make"%string. split; [apply un_own, nth_error_In with (n := 0); vm_compute; reflexivity|].
  cbn. intros g [X|[X|[]]]; discriminate.
Qed.

(** A Dutch program cannot reach its Json: whatever name makes that file be loaded is still not known afterwards. *)
Theorem C149_dutch_json_refuted : exists b, In b builds /\ b_path b = "mods/jsonnl/libctrjsonnl.so"%string /\
  plugin_path (tx "Jsonnl") = Ok (lit (b_path b)) /\
  forall d ws hash, In (lit (b_language b), d) languages -> In (b_language b, ws) dictionaries ->
  exists w, sbegin hash d ws b = Ret w /\ forall fuel t, 301 <= fuel -> plugin_path t = Ok (lit (b_path b)) -> sfind_name hash fuel w t = Ret None.
Proof.
  exists (mkBuild "mods/jsonnl/libctrjsonnl.so" "nl" "Json" json_en).
  assert (B : In (mkBuild "mods/jsonnl/libctrjsonnl.so" "nl" "Json" json_en) builds) by (unfold builds; cbn [In]; tauto).
  split; [exact B|]. split; [reflexivity|]. split; [vm_compute; reflexivity|]. intros d ws hash L D.
  destruct (mods_work _ d ws hash B L D) as (w & E & _). exists w. split; [exact E|]. intros fuel t FU P.
  exact (mods_lost _ d ws hash w fuel t B L D eq_refl E FU P).
Qed.
Print Assumptions C149_dutch_json_refuted.
