(** The built-in objects, their messages and the C functions behind them, as registered by
    [ctr_initialize_world] (world.c 635-1040). *)
From Coq Require Import List String.
Import ListNotations.
Local Open Scope string_scope.

(** The global variables [CtrStd...] (world.c 1-40). *)
Inductive std := OObject | ONil | OBool | ONumber | OString | OBlock | OArray | OMap | OConsole | OFile | OCommand | OClock | OSlurp | OShellCommand | OPath | OBoolTrue | OBoolFalse.
(** A name in the source: a word of the dictionary (CTR_DICT_...), a fixed text, or a fixed text
    followed by CTR_DICT_PARAMETER_PREFIX. *)
Inductive key := Dict (macro : string) | Lit (t : string) | LitPrefix (t : string).

(** The words of the dictionary used below (CTR_DICT_ followed by this). *)
Definition macros : list string := [
  "NEW"; "EQUALS"; "SYMBOL_EQUALS"; "UNEQUALS_SYMBOL"; "ONDO"; "RESPOND_TO";
  "RESPOND_TO_AND"; "RESPOND_TO_AND_AND"; "RESPOND_TO_AND_AND_AND"; "TYPE"; "ISNIL"; "MYSELF";
  "DO"; "DONE"; "IFFALSE"; "IFTRUE"; "MESSAGEARGS"; "TOSTRING";
  "TONUMBER"; "TOBOOL"; "CASE_DO"; "LEARN"; "CODE"; "RECURSIVE";
  "BREAK"; "CONTINUE"; "ELSE"; "NOT"; "AND"; "NOR";
  "OR"; "EITHEROR"; "COPY"; "PLUS"; "ADD_SET"; "MINUS";
  "SUBTRACT_SET"; "MULTIPLIER"; "MULTIPLIER_SET"; "DIVISION"; "DIVIDER_SET"; "GREATER";
  "GREATER_OR_EQUAL_SYMBOL"; "LESS"; "LESS_OR_EQUAL_SYMBOL"; "MODULO"; "FLOOR"; "CEIL";
  "ROUND"; "ABS"; "SQRT"; "POWER"; "ODD"; "EVEN";
  "POS"; "NEG"; "RAW"; "RANDOM_NUM_BETWEEN"; "QUALIFIER_SET"; "QUALIFIER";
  "MATH_SIN"; "MATH_COS"; "MATH_TAN"; "MATH_ATAN"; "MATH_LOG"; "LENGTH";
  "FROM_LENGTH"; "TRIM"; "CHAR_AT_SET"; "INDEX_OF"; "LAST_INDEX_OF"; "REPLACE_WITH";
  "SPLIT"; "ASCII_UPPER_CASE"; "ASCII_LOWER_CASE"; "SKIP"; "APPEND"; "ITONUMBER";
  "HASH_WITH_KEY"; "CHARACTERS"; "CONTAINS"; "COMPARE_SET"; "TOOBJECT"; "RUN";
  "APPLY_TO"; "APPLY_TO_AND"; "APPLY_TO_AND_AND"; "VALUE_SET"; "ERROR"; "CATCH";
  "PROCEDURE"; "WHILE"; "NEW_ARRAY_AND_PUSH_SYMBOL"; "BULLET"; "PUSH_SYMBOL"; "PREPEND";
  "SHIFT"; "COUNT"; "JOIN"; "POP"; "POSITION_SET"; "AT";
  "AT_SYMBOL"; "SORT"; "PUT_AT"; "SPLICE"; "MAP"; "EACH";
  "MIN"; "MAX"; "LAST"; "SECOND_LAST"; "FIRST"; "FILL_WITH";
  "BY_SET"; "ENTRIES"; "VALUES"; "HAS"; "WRITE"; "STOP";
  "NEW_SET"; "PATH"; "READ"; "EXISTS"; "SIZE"; "DELETE";
  "ARRAY"; "ARGUMENT"; "ARGUMENT_COUNT"; "ENVIRONMENT_VARIABLE"; "WAIT_FOR_INPUT"; "SET_ENVIRONMENT_VARIABLE";
  "SWEEP"; "MEMORY_LIMIT"; "GC_MODE"; "SHELL"; "INPUT"; "FLUSH";
  "MEMORY"; "USE_SET"; "WAIT_FOR_PASSW"; "END"; "WAIT"; "TIME";
  "DAY"; "DAY_SET"; "MONTH"; "MONTH_SET"; "YEAR"; "YEAR_SET";
  "HOUR"; "HOUR_SET"; "MINUTE"; "MINUTE_SET"; "SECOND"; "SECOND_SET";
  "WEEK_DAY"; "YEAR_DAY"; "WEEK"; "ZONE"; "ZONE_SET"; "OBJECT";
  "NIL"; "BOOLEAN"; "TRUE"; "FALSE"; "NUMBER"; "STRING";
  "TASK"; "ARRAY_OBJECT"; "MAP_OBJECT"; "PEN_ICON"; "FILE"; "PROGRAM";
  "MOMENT"; "CMD_OBJECT"; "PATH_OBJECT"].

(** The calls of [ctr_internal_create_func] (world.c 655-1028), in order. *)
Definition registrations : list (std * key * string) := [
  (OObject, Dict "NEW", "ctr_object_make");
  (OObject, Dict "EQUALS", "ctr_object_equals");
  (OObject, Dict "SYMBOL_EQUALS", "ctr_object_equals");
  (OObject, Dict "UNEQUALS_SYMBOL", "ctr_object_unequals");
  (OObject, LitPrefix "!=", "ctr_object_unequals");
  (OObject, Dict "ONDO", "ctr_object_on_do");
  (OObject, Dict "RESPOND_TO", "ctr_object_respond");
  (OObject, Dict "RESPOND_TO_AND", "ctr_object_respond_and");
  (OObject, Dict "RESPOND_TO_AND_AND", "ctr_object_respond_and_and");
  (OObject, Dict "RESPOND_TO_AND_AND_AND", "ctr_object_respond_and_and_and");
  (OObject, Dict "TYPE", "ctr_object_type");
  (OObject, Dict "ISNIL", "ctr_object_is_nil");
  (OObject, Dict "MYSELF", "ctr_object_myself");
  (OObject, Dict "DO", "ctr_object_do");
  (OObject, Dict "DONE", "ctr_object_done");
  (OObject, Dict "IFFALSE", "ctr_object_if_false");
  (OObject, Dict "IFTRUE", "ctr_object_if_true");
  (OObject, Dict "MESSAGEARGS", "ctr_object_message");
  (OObject, Dict "TOSTRING", "ctr_object_to_string");
  (OObject, Dict "TONUMBER", "ctr_object_to_number");
  (OObject, Dict "TOBOOL", "ctr_object_to_boolean");
  (OObject, Dict "CASE_DO", "ctr_object_case_do");
  (OObject, Dict "LEARN", "ctr_object_learn_meaning");
  (OObject, Dict "CODE", "ctr_object_to_code");
  (OObject, Dict "RECURSIVE", "ctr_object_recursion");
  (ONil, Dict "ISNIL", "ctr_nil_is_nil");
  (ONil, Dict "TOSTRING", "ctr_nil_to_string");
  (ONil, Dict "TONUMBER", "ctr_nil_to_number");
  (ONil, Dict "TOBOOL", "ctr_nil_to_boolean");
  (ONil, Dict "CODE", "ctr_nil_to_string");
  (OBool, Dict "NEW", "ctr_bool_new");
  (OBool, Dict "IFTRUE", "ctr_bool_if_true");
  (OBool, Dict "IFFALSE", "ctr_bool_if_false");
  (OBool, Dict "BREAK", "ctr_bool_break");
  (OBool, Dict "CONTINUE", "ctr_bool_continue");
  (OBool, Dict "ELSE", "ctr_bool_if_false");
  (OBool, Dict "NOT", "ctr_bool_not");
  (OBool, Dict "AND", "ctr_bool_and");
  (OBool, Dict "NOR", "ctr_bool_nor");
  (OBool, Dict "OR", "ctr_bool_or");
  (OBool, Dict "SYMBOL_EQUALS", "ctr_bool_eq");
  (OBool, Dict "UNEQUALS_SYMBOL", "ctr_bool_neq");
  (OBool, LitPrefix "!=", "ctr_bool_neq");
  (OBool, Dict "TONUMBER", "ctr_bool_to_number");
  (OBool, Dict "TOSTRING", "ctr_bool_to_string");
  (OBool, Dict "TOBOOL", "ctr_object_myself");
  (OBool, Dict "EITHEROR", "ctr_bool_either_or");
  (OBool, Dict "COPY", "ctr_bool_copy");
  (OBool, Dict "CODE", "ctr_bool_to_string");
  (ONumber, Dict "NEW", "ctr_number_new");
  (ONumber, Dict "PLUS", "ctr_number_add");
  (ONumber, Dict "ADD_SET", "ctr_number_inc");
  (ONumber, Dict "MINUS", "ctr_number_minus");
  (ONumber, Dict "SUBTRACT_SET", "ctr_number_dec");
  (ONumber, Dict "MULTIPLIER", "ctr_number_multiply");
  (ONumber, Lit "*", "ctr_number_multiply");
  (ONumber, Dict "MULTIPLIER_SET", "ctr_number_mul");
  (ONumber, Dict "DIVISION", "ctr_number_divide");
  (ONumber, Lit "/", "ctr_number_divide");
  (ONumber, Dict "DIVIDER_SET", "ctr_number_div");
  (ONumber, Dict "GREATER", "ctr_number_higherThan");
  (ONumber, Dict "GREATER_OR_EQUAL_SYMBOL", "ctr_number_higherEqThan");
  (ONumber, LitPrefix ">=", "ctr_number_higherEqThan");
  (ONumber, Dict "LESS", "ctr_number_lowerThan");
  (ONumber, Dict "LESS_OR_EQUAL_SYMBOL", "ctr_number_lowerEqThan");
  (ONumber, LitPrefix "<=", "ctr_number_lowerEqThan");
  (ONumber, Dict "SYMBOL_EQUALS", "ctr_number_eq");
  (ONumber, Dict "UNEQUALS_SYMBOL", "ctr_number_neq");
  (ONumber, LitPrefix "!=", "ctr_number_neq");
  (ONumber, Dict "MODULO", "ctr_number_modulo");
  (ONumber, Dict "FLOOR", "ctr_number_floor");
  (ONumber, Dict "CEIL", "ctr_number_ceil");
  (ONumber, Dict "ROUND", "ctr_number_round");
  (ONumber, Dict "ABS", "ctr_number_abs");
  (ONumber, Dict "SQRT", "ctr_number_sqrt");
  (ONumber, Dict "POWER", "ctr_number_pow");
  (ONumber, Dict "ODD", "ctr_number_odd");
  (ONumber, Dict "EVEN", "ctr_number_even");
  (ONumber, Dict "POS", "ctr_number_positive");
  (ONumber, Dict "NEG", "ctr_number_negative");
  (ONumber, Dict "TOSTRING", "ctr_number_to_string");
  (ONumber, Dict "RAW", "ctr_number_to_string_flat");
  (ONumber, Dict "TOBOOL", "ctr_number_to_boolean");
  (ONumber, Dict "TONUMBER", "ctr_object_myself");
  (ONumber, Dict "RANDOM_NUM_BETWEEN", "ctr_number_between");
  (ONumber, Dict "QUALIFIER_SET", "ctr_number_qualify");
  (ONumber, Dict "QUALIFIER", "ctr_number_qualification");
  (ONumber, Dict "RESPOND_TO", "ctr_number_qualify");
  (ONumber, Dict "COPY", "ctr_number_copy");
  (ONumber, Dict "CODE", "ctr_number_to_string");
  (ONumber, Dict "MATH_SIN", "ctr_number_sin");
  (ONumber, Dict "MATH_COS", "ctr_number_cos");
  (ONumber, Dict "MATH_TAN", "ctr_number_tan");
  (ONumber, Dict "MATH_ATAN", "ctr_number_atan");
  (ONumber, Dict "MATH_LOG", "ctr_number_log");
  (ONumber, Lit "&", "ctr_number_bit_and");
  (ONumber, Lit "|", "ctr_number_bit_or");
  (ONumber, Lit "^", "ctr_number_bit_xor");
  (OString, Dict "NEW", "ctr_string_new");
  (OString, Dict "LENGTH", "ctr_string_length");
  (OString, Dict "FROM_LENGTH", "ctr_string_from_length");
  (OString, Dict "PLUS", "ctr_string_concat");
  (OString, Dict "SYMBOL_EQUALS", "ctr_string_eq");
  (OString, Dict "UNEQUALS_SYMBOL", "ctr_string_neq");
  (OString, LitPrefix "!=", "ctr_string_neq");
  (OString, Dict "TRIM", "ctr_string_trim");
  (OString, Dict "CHAR_AT_SET", "ctr_string_at");
  (OString, Dict "INDEX_OF", "ctr_string_index_of");
  (OString, Dict "LAST_INDEX_OF", "ctr_string_last_index_of");
  (OString, Dict "REPLACE_WITH", "ctr_string_replace_with");
  (OString, Dict "SPLIT", "ctr_string_split");
  (OString, Dict "ASCII_UPPER_CASE", "ctr_string_to_upper");
  (OString, Dict "ASCII_LOWER_CASE", "ctr_string_to_lower");
  (OString, Dict "SKIP", "ctr_string_skip");
  (OString, Dict "APPEND", "ctr_string_append");
  (OString, Dict "ADD_SET", "ctr_string_append");
  (OString, Dict "TONUMBER", "ctr_string_to_number");
  (OString, Dict "ITONUMBER", "ctr_string_in_to_number");
  (OString, Dict "TOBOOL", "ctr_string_to_boolean");
  (OString, Dict "HASH_WITH_KEY", "ctr_string_hash_with_key");
  (OString, Dict "TOSTRING", "ctr_object_myself");
  (OString, Dict "CHARACTERS", "ctr_string_characters");
  (OString, Dict "CONTAINS", "ctr_string_contains");
  (OString, Dict "COMPARE_SET", "ctr_string_compare");
  (OString, Dict "LESS", "ctr_string_before");
  (OString, Dict "LESS_OR_EQUAL_SYMBOL", "ctr_string_before_or_same");
  (OString, LitPrefix "<=", "ctr_string_before_or_same");
  (OString, Dict "GREATER", "ctr_string_after");
  (OString, Dict "GREATER_OR_EQUAL_SYMBOL", "ctr_string_after_or_same");
  (OString, LitPrefix ">=", "ctr_string_after_or_same");
  (OString, Dict "RESPOND_TO_AND", "ctr_string_fill_in");
  (OString, Dict "COPY", "ctr_string_copy");
  (OString, Dict "CODE", "ctr_string_to_code");
  (OString, Dict "TOOBJECT", "ctr_string_eval");
  (OString, Dict "MINUS", "ctr_string_minus");
  (OString, Lit "bytes", "ctr_string_bytes");
  (OBlock, Dict "RUN", "ctr_block_runIt");
  (OBlock, Dict "APPLY_TO", "ctr_block_runIt");
  (OBlock, Dict "APPLY_TO_AND", "ctr_block_runIt");
  (OBlock, Dict "APPLY_TO_AND_AND", "ctr_block_runIt");
  (OBlock, Dict "VALUE_SET", "ctr_block_set");
  (OBlock, Dict "ERROR", "ctr_block_error");
  (OBlock, Dict "CATCH", "ctr_block_catch");
  (OBlock, Dict "MULTIPLIER", "ctr_block_times");
  (OBlock, Lit "*", "ctr_block_times");
  (OBlock, Dict "PROCEDURE", "ctr_block_procedure");
  (OBlock, Dict "WHILE", "ctr_block_while_true");
  (OBlock, Dict "TOSTRING", "ctr_block_to_string");
  (OArray, Dict "NEW", "ctr_array_new");
  (OArray, Dict "NEW_ARRAY_AND_PUSH_SYMBOL", "ctr_array_new_and_push");
  (OArray, LitPrefix "<<", "ctr_array_new_and_push");
  (OArray, Dict "TYPE", "ctr_array_type");
  (OArray, Dict "APPEND", "ctr_array_push");
  (OArray, Dict "MINUS", "ctr_array_push");
  (OArray, Dict "BULLET", "ctr_array_push");
  (OArray, Dict "PUSH_SYMBOL", "ctr_array_push");
  (OArray, Dict "PREPEND", "ctr_array_unshift");
  (OArray, Dict "SHIFT", "ctr_array_shift");
  (OArray, Dict "COUNT", "ctr_array_count");
  (OArray, Dict "JOIN", "ctr_array_join");
  (OArray, Dict "POP", "ctr_array_pop");
  (OArray, Dict "POSITION_SET", "ctr_array_get");
  (OArray, Dict "AT", "ctr_array_get");
  (OArray, Dict "AT_SYMBOL", "ctr_array_get");
  (OArray, Dict "SORT", "ctr_array_sort");
  (OArray, Dict "PUT_AT", "ctr_array_put");
  (OArray, Dict "FROM_LENGTH", "ctr_array_from_length");
  (OArray, Dict "SPLICE", "ctr_array_splice");
  (OArray, Dict "PLUS", "ctr_array_add");
  (OArray, Dict "MAP", "ctr_array_map");
  (OArray, Dict "EACH", "ctr_array_map");
  (OArray, Dict "MIN", "ctr_array_min");
  (OArray, Dict "MAX", "ctr_array_max");
  (OArray, Dict "TOSTRING", "ctr_array_to_string");
  (OArray, Dict "LAST", "ctr_array_last");
  (OArray, Dict "SECOND_LAST", "ctr_array_second_last");
  (OArray, Dict "FIRST", "ctr_array_first");
  (OArray, Dict "FILL_WITH", "ctr_array_fill");
  (OArray, Dict "BY_SET", "ctr_array_combine");
  (OArray, Dict "INDEX_OF", "ctr_array_index_of");
  (OArray, Dict "COPY", "ctr_array_copy");
  (OMap, Dict "NEW", "ctr_map_new");
  (OMap, Dict "TYPE", "ctr_map_type");
  (OMap, Dict "PUT_AT", "ctr_map_put");
  (OMap, Dict "AT", "ctr_map_get");
  (OMap, Dict "AT_SYMBOL", "ctr_map_get");
  (OMap, Dict "COUNT", "ctr_map_count");
  (OMap, Dict "EACH", "ctr_map_each");
  (OMap, Dict "MAP", "ctr_map_each");
  (OMap, Dict "TOSTRING", "ctr_map_to_string");
  (OMap, Dict "MINUS", "ctr_map_delete");
  (OMap, Dict "ENTRIES", "ctr_map_keys");
  (OMap, Dict "VALUES", "ctr_map_values");
  (OMap, Dict "CONTAINS", "ctr_map_has");
  (OMap, Dict "HAS", "ctr_map_has");
  (OMap, Dict "RESPOND_TO_AND", "ctr_map_key_value");
  (OMap, Dict "RESPOND_TO", "ctr_map_get");
  (OConsole, Dict "WRITE", "ctr_console_write");
  (OConsole, Dict "STOP", "ctr_console_brk");
  (OFile, Dict "NEW_SET", "ctr_file_new");
  (OFile, Dict "PATH", "ctr_file_path");
  (OFile, Dict "READ", "ctr_file_read");
  (OFile, Dict "WRITE", "ctr_file_write");
  (OFile, Dict "APPEND", "ctr_file_append");
  (OFile, Dict "EXISTS", "ctr_file_exists");
  (OFile, Dict "SIZE", "ctr_file_size");
  (OFile, Dict "DELETE", "ctr_file_delete");
  (OFile, Dict "ARRAY", "ctr_file_list");
  (OFile, Dict "TOSTRING", "ctr_file_to_string");
  (OCommand, Dict "ARGUMENT", "ctr_program_argument");
  (OCommand, Dict "ARGUMENT_COUNT", "ctr_program_num_of_args");
  (OCommand, Dict "ENVIRONMENT_VARIABLE", "ctr_program_get_env");
  (OCommand, Dict "WAIT_FOR_INPUT", "ctr_program_waitforinput");
  (OCommand, Dict "SET_ENVIRONMENT_VARIABLE", "ctr_program_set_env");
  (OCommand, Dict "SWEEP", "ctr_gc_collect");
  (OCommand, Dict "MEMORY_LIMIT", "ctr_gc_setmemlimit");
  (OCommand, Dict "GC_MODE", "ctr_gc_setmode");
  (OCommand, Dict "SHELL", "ctr_program_shell");
  (OCommand, Dict "INPUT", "ctr_program_input");
  (OCommand, Dict "FLUSH", "ctr_program_flush");
  (OCommand, Dict "ERROR", "ctr_program_err");
  (OCommand, Dict "MEMORY", "ctr_gc_memory");
  (OCommand, Dict "USE_SET", "ctr_program_include");
  (OCommand, Dict "WAIT_FOR_PASSW", "ctr_program_waitforpassword");
  (OCommand, Lit "test", "ctr_program_test");
  (OCommand, Dict "RESPOND_TO_AND", "ctr_program_object_message_exists");
  (OCommand, Dict "RESPOND_TO", "ctr_program_object_exists");
  (OCommand, Dict "INDEX_OF", "ctr_program_object_exists");
  (OCommand, Dict "END", "ctr_program_exit");
  (OCommand, Dict "TONUMBER", "ctr_program_tonumber");
  (OCommand, Dict "TOSTRING", "ctr_program_tostring");
  (OClock, Dict "WAIT", "ctr_clock_wait");
  (OClock, Dict "TIME", "ctr_clock_time");
  (OClock, Dict "NEW_SET", "ctr_clock_new_set");
  (OClock, Dict "NEW", "ctr_clock_new");
  (OClock, Dict "DAY", "ctr_clock_day");
  (OClock, Dict "DAY_SET", "ctr_clock_set_day");
  (OClock, Dict "MONTH", "ctr_clock_month");
  (OClock, Dict "MONTH_SET", "ctr_clock_set_month");
  (OClock, Dict "YEAR", "ctr_clock_year");
  (OClock, Dict "YEAR_SET", "ctr_clock_set_year");
  (OClock, Dict "HOUR", "ctr_clock_hour");
  (OClock, Dict "HOUR_SET", "ctr_clock_set_hour");
  (OClock, Dict "MINUTE", "ctr_clock_minute");
  (OClock, Dict "MINUTE_SET", "ctr_clock_set_minute");
  (OClock, Dict "SECOND", "ctr_clock_second");
  (OClock, Dict "SECOND_SET", "ctr_clock_set_second");
  (OClock, Dict "WEEK_DAY", "ctr_clock_weekday");
  (OClock, Dict "YEAR_DAY", "ctr_clock_yearday");
  (OClock, Dict "WEEK", "ctr_clock_week");
  (OClock, Dict "ZONE", "ctr_clock_get_zone");
  (OClock, Dict "ZONE_SET", "ctr_clock_set_zone");
  (OClock, Dict "TOSTRING", "ctr_clock_to_string");
  (OClock, Dict "TONUMBER", "ctr_clock_to_number");
  (OClock, Dict "ADD_SET", "ctr_clock_add");
  (OClock, Dict "SUBTRACT_SET", "ctr_clock_subtract");
  (OClock, Dict "COPY", "ctr_clock_copy");
  (OClock, Dict "SYMBOL_EQUALS", "ctr_clock_equals");
  (OClock, Dict "UNEQUALS_SYMBOL", "ctr_clock_neq");
  (OSlurp, Lit "obtain", "ctr_slurp_obtain");
  (OSlurp, Dict "TOSTRING", "ctr_slurp_to_string");
  (OSlurp, Dict "RESPOND_TO", "ctr_slurp_respond_to");
  (OSlurp, Dict "RESPOND_TO_AND", "ctr_slurp_respond_to_and");
  (OShellCommand, Dict "RESPOND_TO", "ctr_shellcommand_respond_to");
  (OShellCommand, Dict "RESPOND_TO_AND", "ctr_shellcommand_respond_to_and");
  (OPath, Dict "RESPOND_TO", "ctr_path_respond_to");
  (OPath, Dict "RESPOND_TO_AND", "ctr_path_respond_to_and")].

(** The calls of [ctr_internal_object_add_property] on CtrStdWorld (world.c 680-1029), in order. *)
Definition globals : list (key * std) := [
  (Dict "OBJECT", OObject);
  (Dict "NIL", ONil);
  (Dict "BOOLEAN", OBool);
  (Dict "TRUE", OBoolTrue);
  (Dict "FALSE", OBoolFalse);
  (Dict "NUMBER", ONumber);
  (Dict "STRING", OString);
  (Dict "TASK", OBlock);
  (Dict "ARRAY_OBJECT", OArray);
  (Dict "MAP_OBJECT", OMap);
  (Dict "PEN_ICON", OConsole);
  (Dict "FILE", OFile);
  (Dict "PROGRAM", OCommand);
  (Dict "MOMENT", OClock);
  (Lit "Slurp", OSlurp);
  (Dict "CMD_OBJECT", OShellCommand);
  (Dict "PATH_OBJECT", OPath)].

(** The assignments to [link] (world.c 681-1030). *)
Definition link (o : std) : option std :=
  match o with OObject => None | OBoolTrue | OBoolFalse => Some OBool | _ => Some OObject end.
