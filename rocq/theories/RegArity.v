(** The number of arguments of the functions of the built-in messages: how many of [argumentList] the C function reads,
    itself or in the function it passes the list on to; for [respond:] and its kin, which ignore them, the number in the name
    of the function.  [ctr_block_runIt] passes on what it gets. *)
From Coq Require Import List String.
Import ListNotations.
Local Open Scope string_scope.
Definition takes : list (string * nat) := [
  ("ctr_object_make", 0);
  ("ctr_object_equals", 1);
  ("ctr_object_unequals", 1);
  ("ctr_object_on_do", 2);
  ("ctr_object_respond", 1);
  ("ctr_object_respond_and", 2);
  ("ctr_object_respond_and_and", 3);
  ("ctr_object_respond_and_and_and", 4);
  ("ctr_object_type", 0);
  ("ctr_object_is_nil", 0);
  ("ctr_object_myself", 0);
  ("ctr_object_do", 0);
  ("ctr_object_done", 0);
  ("ctr_object_if_false", 1);
  ("ctr_object_if_true", 1);
  ("ctr_object_message", 2);
  ("ctr_object_to_string", 0);
  ("ctr_object_to_number", 0);
  ("ctr_object_to_boolean", 0);
  ("ctr_object_case_do", 2);
  ("ctr_object_learn_meaning", 2);
  ("ctr_object_to_code", 0);
  ("ctr_object_recursion", 0);
  ("ctr_nil_is_nil", 0);
  ("ctr_nil_to_string", 0);
  ("ctr_nil_to_number", 0);
  ("ctr_nil_to_boolean", 0);
  ("ctr_bool_new", 0);
  ("ctr_bool_if_true", 1);
  ("ctr_bool_if_false", 1);
  ("ctr_bool_break", 0);
  ("ctr_bool_continue", 0);
  ("ctr_bool_not", 0);
  ("ctr_bool_and", 1);
  ("ctr_bool_nor", 1);
  ("ctr_bool_or", 1);
  ("ctr_bool_eq", 1);
  ("ctr_bool_neq", 1);
  ("ctr_bool_to_number", 0);
  ("ctr_bool_to_string", 0);
  ("ctr_bool_either_or", 2);
  ("ctr_bool_copy", 0);
  ("ctr_number_new", 0);
  ("ctr_number_add", 1);
  ("ctr_number_inc", 1);
  ("ctr_number_minus", 1);
  ("ctr_number_dec", 1);
  ("ctr_number_multiply", 1);
  ("ctr_number_mul", 1);
  ("ctr_number_divide", 1);
  ("ctr_number_div", 1);
  ("ctr_number_higherThan", 1);
  ("ctr_number_higherEqThan", 1);
  ("ctr_number_lowerThan", 1);
  ("ctr_number_lowerEqThan", 1);
  ("ctr_number_eq", 1);
  ("ctr_number_neq", 1);
  ("ctr_number_modulo", 1);
  ("ctr_number_floor", 0);
  ("ctr_number_ceil", 0);
  ("ctr_number_round", 0);
  ("ctr_number_abs", 0);
  ("ctr_number_sqrt", 0);
  ("ctr_number_pow", 1);
  ("ctr_number_odd", 0);
  ("ctr_number_even", 0);
  ("ctr_number_positive", 0);
  ("ctr_number_negative", 0);
  ("ctr_number_to_string", 0);
  ("ctr_number_to_string_flat", 0);
  ("ctr_number_to_boolean", 0);
  ("ctr_number_between", 2);
  ("ctr_number_qualify", 1);
  ("ctr_number_qualification", 0);
  ("ctr_number_copy", 0);
  ("ctr_number_sin", 0);
  ("ctr_number_cos", 0);
  ("ctr_number_tan", 0);
  ("ctr_number_atan", 0);
  ("ctr_number_log", 0);
  ("ctr_number_bit_and", 1);
  ("ctr_number_bit_or", 1);
  ("ctr_number_bit_xor", 1);
  ("ctr_string_new", 0);
  ("ctr_string_length", 0);
  ("ctr_string_from_length", 2);
  ("ctr_string_concat", 1);
  ("ctr_string_eq", 1);
  ("ctr_string_neq", 1);
  ("ctr_string_trim", 0);
  ("ctr_string_at", 1);
  ("ctr_string_index_of", 1);
  ("ctr_string_last_index_of", 1);
  ("ctr_string_replace_with", 2);
  ("ctr_string_split", 1);
  ("ctr_string_to_upper", 0);
  ("ctr_string_to_lower", 0);
  ("ctr_string_skip", 1);
  ("ctr_string_append", 1);
  ("ctr_string_to_number", 0);
  ("ctr_string_in_to_number", 0);
  ("ctr_string_to_boolean", 0);
  ("ctr_string_hash_with_key", 1);
  ("ctr_string_characters", 0);
  ("ctr_string_contains", 1);
  ("ctr_string_compare", 1);
  ("ctr_string_before", 1);
  ("ctr_string_before_or_same", 1);
  ("ctr_string_after", 1);
  ("ctr_string_after_or_same", 1);
  ("ctr_string_fill_in", 2);
  ("ctr_string_copy", 0);
  ("ctr_string_to_code", 0);
  ("ctr_string_eval", 0);
  ("ctr_string_minus", 1);
  ("ctr_string_bytes", 0);
  ("ctr_block_runIt", 0);
  ("ctr_block_runIt", 1);
  ("ctr_block_runIt", 2);
  ("ctr_block_runIt", 3);
  ("ctr_block_set", 2);
  ("ctr_block_error", 1);
  ("ctr_block_catch", 1);
  ("ctr_block_times", 1);
  ("ctr_block_procedure", 0);
  ("ctr_block_while_true", 1);
  ("ctr_block_to_string", 0);
  ("ctr_array_new", 0);
  ("ctr_array_new_and_push", 1);
  ("ctr_array_type", 0);
  ("ctr_array_push", 1);
  ("ctr_array_unshift", 1);
  ("ctr_array_shift", 0);
  ("ctr_array_count", 0);
  ("ctr_array_join", 1);
  ("ctr_array_pop", 0);
  ("ctr_array_get", 1);
  ("ctr_array_sort", 1);
  ("ctr_array_put", 2);
  ("ctr_array_from_length", 2);
  ("ctr_array_splice", 3);
  ("ctr_array_add", 1);
  ("ctr_array_map", 1);
  ("ctr_array_min", 0);
  ("ctr_array_max", 0);
  ("ctr_array_to_string", 0);
  ("ctr_array_last", 0);
  ("ctr_array_second_last", 0);
  ("ctr_array_first", 0);
  ("ctr_array_fill", 2);
  ("ctr_array_combine", 1);
  ("ctr_array_index_of", 1);
  ("ctr_array_copy", 0);
  ("ctr_map_new", 0);
  ("ctr_map_type", 0);
  ("ctr_map_put", 2);
  ("ctr_map_get", 1);
  ("ctr_map_count", 0);
  ("ctr_map_each", 1);
  ("ctr_map_to_string", 0);
  ("ctr_map_delete", 1);
  ("ctr_map_keys", 0);
  ("ctr_map_values", 0);
  ("ctr_map_has", 1);
  ("ctr_map_key_value", 2);
  ("ctr_console_write", 1);
  ("ctr_console_brk", 0);
  ("ctr_file_new", 1);
  ("ctr_file_path", 0);
  ("ctr_file_read", 0);
  ("ctr_file_write", 1);
  ("ctr_file_append", 1);
  ("ctr_file_exists", 0);
  ("ctr_file_size", 0);
  ("ctr_file_delete", 0);
  ("ctr_file_list", 1);
  ("ctr_file_to_string", 0);
  ("ctr_program_argument", 1);
  ("ctr_program_num_of_args", 0);
  ("ctr_program_get_env", 1);
  ("ctr_program_waitforinput", 0);
  ("ctr_program_set_env", 2);
  ("ctr_gc_collect", 0);
  ("ctr_gc_setmemlimit", 1);
  ("ctr_gc_setmode", 1);
  ("ctr_program_shell", 1);
  ("ctr_program_input", 0);
  ("ctr_program_flush", 0);
  ("ctr_program_err", 1);
  ("ctr_gc_memory", 0);
  ("ctr_program_include", 1);
  ("ctr_program_waitforpassword", 0);
  ("ctr_program_test", 0);
  ("ctr_program_object_message_exists", 2);
  ("ctr_program_object_exists", 1);
  ("ctr_program_exit", 0);
  ("ctr_program_tonumber", 0);
  ("ctr_program_tostring", 0);
  ("ctr_clock_wait", 1);
  ("ctr_clock_time", 0);
  ("ctr_clock_new_set", 1);
  ("ctr_clock_new", 0);
  ("ctr_clock_day", 0);
  ("ctr_clock_set_day", 1);
  ("ctr_clock_month", 0);
  ("ctr_clock_set_month", 1);
  ("ctr_clock_year", 0);
  ("ctr_clock_set_year", 1);
  ("ctr_clock_hour", 0);
  ("ctr_clock_set_hour", 1);
  ("ctr_clock_minute", 0);
  ("ctr_clock_set_minute", 1);
  ("ctr_clock_second", 0);
  ("ctr_clock_set_second", 1);
  ("ctr_clock_weekday", 0);
  ("ctr_clock_yearday", 0);
  ("ctr_clock_week", 0);
  ("ctr_clock_get_zone", 0);
  ("ctr_clock_set_zone", 1);
  ("ctr_clock_to_string", 0);
  ("ctr_clock_to_number", 0);
  ("ctr_clock_add", 1);
  ("ctr_clock_subtract", 1);
  ("ctr_clock_copy", 0);
  ("ctr_clock_equals", 1);
  ("ctr_clock_neq", 1);
  ("ctr_slurp_obtain", 0);
  ("ctr_slurp_to_string", 0);
  ("ctr_slurp_respond_to", 1);
  ("ctr_slurp_respond_to_and", 2);
  ("ctr_shellcommand_respond_to", 1);
  ("ctr_shellcommand_respond_to_and", 2);
  ("ctr_path_respond_to", 1);
  ("ctr_path_respond_to_and", 2)
].
