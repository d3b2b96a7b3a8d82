(** Model of the plugins Request and Json as their makefiles build them: what [begin] adds to the world, and the
    search for names and methods afterwards.

    Simplifications: as in RegModel; reading the variables of the request (request.c 336-338) is modelled
    in ReqModel.  The message that starts a server (request.c 332-334) needs the macro SERVER, which no
    makefile defines, so it is not among the registrations. *)
From Coq Require Import List String NArith.
From Verif Require Import Common Fuel Txt LexModel MapModel RegTable RegModel.
Import ListNotations.
Open Scope nat_scope.

(** A name: a word of the language (i18n/*/dictionary.h) or of the plugin (plugins/*/i18n/*/dictionary.h). *)
Inductive skey := SCore (k : key) | SText (t : string).
Definition stext (d : dict) (ws : list string) (k : skey) : text := match k with SCore k => key_text d ws k | SText t => lit t end.
(** A plugin as built: where it is installed, the language it is built for, the name of its object, its messages. *)
Record build := mkBuild { b_path : string; b_language : string; b_name : string; b_methods : list (skey * string) }.
(** request.c 321-331 with plugins/request/i18n/nl/dictionary.h 1-9 *)
Definition request_nl : list (skey * string) := [
  (SText "vraag:", "ctr_request_get_string");
  (SText "vragen:", "ctr_request_get_array");
  (SText "koekje:", "ctr_request_cookie_string");
  (SText "koekjes:", "ctr_request_cookie_array");
  (SText "zending:", "ctr_request_post_string");
  (SText "bestand:", "ctr_request_file");
  (SText "zendingen:", "ctr_request_post_array");
  (SCore (Dict "SET_ENVIRONMENT_VARIABLE"), "ctr_request_server_option")]%string.
(** request.c 321-331 with plugins/request/i18n/us/dictionary.h 1-9 *)
Definition request_us : list (skey * string) := [
  (SText "get:", "ctr_request_get_string");
  (SText "get list:", "ctr_request_get_array");
  (SText "cookie:", "ctr_request_cookie_string");
  (SText "cookies:", "ctr_request_cookie_array");
  (SText "post:", "ctr_request_post_string");
  (SText "file:", "ctr_request_file");
  (SText "post list:", "ctr_request_post_array");
  (SCore (Dict "SET_ENVIRONMENT_VARIABLE"), "ctr_request_server_option")]%string.
(** jsmn.c 498-499 with plugins/jsmn/i18n/en/dictionary.h 1-3 *)
Definition json_en : list (skey * string) := [
  (SText "to object:", "ctr_json_parse");
  (SText "jsonify:", "ctr_json_jsonify")]%string.
(** jsmn.c 498-499 with plugins/jsmn/i18n/hy/dictionary.h 1-3 *)
Definition json_hy : list (skey * string) := [
  (SText "to object.", "ctr_json_parse");
  (SText "jsonify.", "ctr_json_jsonify")]%string.
(** plugins/request/makefile 3-19, plugins/jsmn/makefile 3-29, request.c 15-19, jsmn.c 7-13: the Dutch Json is compiled
    without langNL, so with the English words. *)
Definition builds : list build := [
  mkBuild "mods/verzoek/libctrverzoek.so" "nl" "Verzoek" request_nl;
  mkBuild "mods/request/libctrrequest.so" "xx" "Request" request_us;
  mkBuild "mods/json/libctrjson.so" "en" "Json" json_en;
  mkBuild "mods/jsonnl/libctrjsonnl.so" "nl" "Json" json_en;
  mkBuild "mods/jsonhy/libctrjsonhy.so" "hy" "Jsonhy" json_hy]%string.

(** The number of arguments each function reads (request.c 42-251, jsmn.c 323-400). *)
Definition stakes : list (string * nat) := [
  ("ctr_request_get_string", 1); ("ctr_request_get_array", 1); ("ctr_request_cookie_string", 1); ("ctr_request_cookie_array", 1);
  ("ctr_request_post_string", 1); ("ctr_request_file", 1); ("ctr_request_post_array", 1); ("ctr_request_server_option", 2);
  ("ctr_json_parse", 1); ("ctr_json_jsonify", 1)]%string.

(** The main program, the methods of the object of the plugin, the names in World; [None] is that object. *)
Record sworld := mkSW { sw_core : world; sw_methods : @pmap string; sw_names : @pmap (option std) }.
Section Run.
Variable hash : text -> Z.
(** world.c 404-408, [ctr_internal_create_func]; world.c 226-255, [ctr_internal_object_add_property] *)
Fixpoint sadd {V} (xs : list (text * V)) (m : @pmap V) : res (@pmap V) :=
  match xs with [] => Ret m | (t, v) :: xs => let! m1 := add_property hash m t v in sadd xs m1 end.
(** world.c 639-1042, [ctr_initialize_world], then request.c 321-335 or jsmn.c 496-501, [begin] *)
Definition sbegin (d : dict) (ws : list string) (b : build) : res sworld :=
  let! w := initialize hash d ws in
  let! names := sadd (map (fun g => (key_text d ws (fst g), Some (snd g))) globals) map_new in
  let! methods := sadd (map (fun r => (stext d ws (fst r), snd r)) (b_methods b)) map_new in
  let! names1 := sadd [(lit (b_name b), None)] names in
  Ret (mkSW w methods names1).
(** world.c 1070-1098: the object itself, then Object (request.c 323, jsmn.c 224). *)
Definition sfind_method (fuel : nat) (w : sworld) (name : text) : res (option string) :=
  let! r := find_property hash fuel (sw_methods w) name in
  match r with Some f => Ret (Some f) | None => find_method hash fuel (sw_core w) OObject name end.
(** world.c 541 *)
Definition sfind_name (fuel : nat) (w : sworld) (name : text) : res (option (option std)) := find_property hash fuel (sw_names w) name.
End Run.
