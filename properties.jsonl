{"id": "C01", "title": "Text length counts characters", "statement": "For every well-formed UTF-8 text, `length` answers the number of characters (code points), never the number of bytes; in particular it is additive under concatenation.", "quantifier": "for all well-formed UTF-8 byte strings of any length", "why_tests_cant": "A test can only sample texts; the counting loop derives the character count from a subtraction over every byte, so only an argument over all byte strings excludes a miscount.", "anchors": ["utf8.c: ctr_utf8size, ctr_getutf8len", "base.c: ctr_string_length"]}
{"id": "C02", "title": "`characters` is a lossless partition", "statement": "For every well-formed text, `characters` answers a list whose elements are each exactly one character, whose concatenation is the original text and whose count equals `length`.", "quantifier": "for all well-formed UTF-8 byte strings", "why_tests_cant": "Concerns every mix of 1-4 byte characters in every position.", "anchors": ["base.c: ctr_string_characters", "utf8.c: ctr_utf8size"]}
{"id": "C03", "title": "`from:length:` takes exactly the requested characters and never reads outside the text", "statement": "For every text t and all numbers n and m, `t from: n length: m` answers the characters n..n+m-1 of t (clipped to the text) and touches only bytes of t.", "quantifier": "for all texts, start positions and lengths", "why_tests_cant": "The clipping code has several overlapping branches; the failure needs a multi-byte text and a request beyond its character length at once.", "anchors": ["base.c: ctr_string_fromto", "utf8.c: getBytesUtf8"]}
{"id": "C04", "title": "`offset:` drops the first n characters", "statement": "For every well-formed text t and every n >= 0, `t offset: n` equals t without its first n characters; it is empty once n reaches the length, and reads only bytes of t.", "quantifier": "for all well-formed texts and all non-negative offsets", "why_tests_cant": "Unbounded texts and offsets.", "anchors": ["base.c: ctr_string_skip", "base.c: ctr_string_fromto"]}
{"id": "C05", "title": "`character:` is the n-th character", "statement": "For every well-formed text t, `t character: n` equals the n-th element of the character sequence of t for 1 <= n <= length, and Nil otherwise.", "quantifier": "for all well-formed texts and all whole numbers n", "why_tests_cant": "Boundary positions around every mix of character widths.", "anchors": ["base.c: ctr_string_at"]}
{"id": "C06", "title": "Text equality is content equality, and inequality is its negation", "statement": "`a = b` is True exactly if a and b consist of the same bytes; `a != b` is always the opposite of `a = b`.", "quantifier": "for all pairs of texts, including texts containing NUL bytes", "why_tests_cant": "The comparison relies on strncmp, which only differs from content equality on rare inputs.", "anchors": ["base.c: ctr_string_eq, ctr_string_neq"]}
{"id": "C07", "title": "`compare:` is a lawful three-way comparison", "statement": "`a compare: b` is 0 only for equal texts, has opposite signs when the operands are swapped, and is transitive.", "quantifier": "for all pairs and triples of texts", "why_tests_cant": "Order laws quantify over triples of unbounded texts; sorting relies on them.", "anchors": ["base.c: ctr_string_compare"]}
{"id": "C08", "title": "Concatenation and append", "statement": "`a + b` is a text consisting of the bytes of a followed by the bytes of b and leaves a and b unchanged; `a append: b` makes a that text.", "quantifier": "for all pairs of texts", "why_tests_cant": "All lengths, including empty operands and embedded NULs.", "anchors": ["base.c: ctr_string_concat, ctr_string_append"]}
{"id": "C09", "title": "`replace:with:` replaces exactly the leftmost non-overlapping occurrences", "statement": "`t replace: p with: r` equals the text obtained by scanning t from left to right and substituting r for each non-overlapping occurrence of p, leaving everything else untouched, and the work buffer is never overrun.", "quantifier": "for all texts t, patterns p and replacements r (shorter, equal or longer than p)", "why_tests_cant": "Buffer-size accounting depends on the number of matches and on the length difference.", "anchors": ["base.c: ctr_string_replace_with"]}
{"id": "C10", "title": "`split:` and `combine:` are inverse", "statement": "Joining the parts of `t split: d` with d gives t back, and no part contains d.", "quantifier": "for all texts t and all non-empty separators d", "why_tests_cant": "The matcher has no backtracking, so failures depend on how a separator overlaps with itself.", "anchors": ["base.c: ctr_string_split", "collections.c: ctr_array_join"]}
{"id": "C11", "title": "`find:` / `last:` / `contains:` locate occurrences", "statement": "`t find: p` answers the one-based character position of the first occurrence of p in t, `last:` that of the last one, Nil if and only if there is none; `contains:` tells whether there is one.", "quantifier": "for all texts t and patterns p", "why_tests_cant": "Every overlap of pattern and text, with multi-byte prefixes.", "anchors": ["base.c: ctr_string_index_of, ctr_string_last_index_of, ctr_string_contains", "world.c: ctr_internal_memmem"]}
{"id": "C12", "title": "Suffix removal with `-`", "statement": "`t - s` equals u whenever t = u + s, and t otherwise.", "quantifier": "for all texts t and s", "why_tests_cant": "Boundary when s is empty, equal to or longer than t.", "anchors": ["base.c: ctr_string_min"]}
{"id": "C13", "title": "`trim` removes exactly the surrounding whitespace", "statement": "`t trim` has no leading or trailing whitespace, and t is some whitespace, then `t trim`, then some whitespace.", "quantifier": "for all texts", "why_tests_cant": "All-whitespace and one-character texts make the index arithmetic meet.", "anchors": ["base.c: ctr_string_trim"]}
{"id": "C14", "title": "Case conversion maps ASCII letters only and keeps the length", "statement": "`uppercase` (`lowercase`) changes every ASCII lower (upper) case letter to its counterpart and leaves every other byte alone; it never frees or writes memory it does not own.", "quantifier": "for all texts", "why_tests_cant": "Every byte value in every position, and the empty text.", "anchors": ["base.c: ctr_string_to_upper, ctr_string_to_lower"]}
{"id": "C15", "title": "`code` of a text denotes the same text when read back", "statement": "Evaluating the answer of `t code` as a text literal gives t.", "quantifier": "for all texts t", "why_tests_cant": "Depends on quoting in the printer and un-quoting in the lexer agreeing for every byte sequence.", "anchors": ["base.c: ctr_string_quotes_escape", "lexer.c: ctr_clex_readstr, ctr_clex_literal_esc"]}
{"id": "C16", "title": "Keyed hash is SipHash-2-4", "statement": "`t hash: k` is the decimal text of the SipHash-2-4 value of the bytes of t under the first 16 bytes of k that are not NUL; a key with fewer than 16 such bytes raises an error and answers Nil.", "quantifier": "for all texts and keys", "why_tests_cant": "Every message length modulo 8 takes a different tail path, 64-bit wrap-around at every step.", "anchors": ["siphash.c: siphash24", "base.c: ctr_string_hash_with_key"]}
{"id": "C17", "title": "International number formatting groups by threes and loses nothing", "statement": "The localized rendering of a number has the same digits as the plain one, a thousands separator exactly between groups of three integer digits and the decimal separator exactly once; removing the separators gives the plain text back.", "quantifier": "for all plain decimal numerals of any length and all separator strings", "why_tests_cant": "Digit counts modulo 3 and separators of any byte length.", "anchors": ["base.c: ctr_international_number, ctr_national_number"]}
{"id": "C18", "title": "Random numbers stay inside the requested range", "statement": "`a between: a and: b` answers a whole number within the two bounds whatever the order in which they are given and whatever the random source returns.", "quantifier": "for all bounds and all values of the random source", "why_tests_cant": "The random source cannot be enumerated.", "anchors": ["base.c: ctr_number_between"]}
{"id": "C19", "title": "Division by zero is an error and never a crash", "statement": "Dividing (or taking the modulo) by zero raises the division error and leaves the receiver unchanged; for every other divisor no error is raised.", "quantifier": "for all numbers", "why_tests_cant": "Small fractional divisors and integer truncation create additional zero divisors.", "anchors": ["base.c: ctr_number_divide, ctr_number_modulo"]}
{"id": "C20", "title": "Number predicates partition the numbers", "statement": "For every number exactly one of `odd?`/`even?` holds; `positive?`, `negative?` and equality with zero are mutually exclusive and exhaustive; <, =, > obey trichotomy and >=, <=, != are the complements.", "quantifier": "for all numbers", "why_tests_cant": "Truncation of fractions and negative operands of the remainder.", "anchors": ["base.c: ctr_number_odd, ctr_number_even, ctr_number_positive, ctr_number_negative, ctr_number_eq, ctr_number_neq, ctr_number_higherThan, ctr_number_lowerThan"]}
{"id": "C21", "title": "Boolean messages follow their truth tables", "statement": "and:, or:, nor:, not, either:or:, = and != on truth values agree with classical logic and never change the receiver.", "quantifier": "for all truth values and all argument kinds (through their boolean conversion)", "why_tests_cant": "The argument may be any object; the claim is about its conversion.", "anchors": ["base.c: ctr_bool_and, ctr_bool_or, ctr_bool_nor, ctr_bool_not, ctr_bool_either_or, ctr_bool_eq, ctr_bool_neq"]}
{"id": "C22", "title": "Counting loops run the right number of times", "statement": "`{...} * n` (n a number whose whole part fits an int) runs the block for 1..n in order and answers the block; `continue` ends only that round, `break` ends the loop and is consumed, any other error ends the loop and stays pending.", "quantifier": "for all such n and all block behaviours (any pattern of continue, break, error)", "why_tests_cant": "The behaviour of the block in each round is arbitrary.", "anchors": ["base.c: ctr_block_times, ctr_bool_break, ctr_bool_continue"]}
{"id": "C23", "title": "While loops", "statement": "`{b} while: {c}` alternates the condition c and the body b, stops when c answers False, when c or b fails (the error stays pending) or when b breaks (consumed); `continue` in b ends only that round; the answer is the block b.", "quantifier": "for all behaviours of condition and body", "why_tests_cant": "Arbitrary, possibly non-terminating histories.", "anchors": ["base.c: ctr_block_while_true"]}
{"id": "C24", "title": "Errors are delivered exactly once to the innermost handler", "statement": "An error raised while a task runs skips every later message and assignment until the innermost enclosing task with a `catch:` handler, which receives the error text; afterwards no error is pending and the call stack is as deep as before the task.", "quantifier": "for all programs and all error sites", "why_tests_cant": "Errors can occur at any depth of any nesting of tasks.", "anchors": ["base.c: ctr_block_run, ctr_block_catch, ctr_block_error", "walker.c: ctr_cwlk_expr, ctr_cwlk_message", "world.c: ctr_send_message"]}
{"id": "C25", "title": "Lists behave like sequences under their end operations", "statement": "Every sequence of `append`, `prepend`, `pop`, `shift`, `at:`, `first`, `last`, `count` on a list answers what the same operations on a mathematical sequence answer, and never touches memory outside the element buffer.", "quantifier": "for all finite operation histories", "why_tests_cant": "The buffer is a window that moves in both directions and grows; only an invariant covers all histories.", "anchors": ["collections.c: ctr_array_new, ctr_array_push, ctr_array_unshift, ctr_array_pop, ctr_array_shift, ctr_array_get, ctr_array_first, ctr_array_last, ctr_array_count"]}
{"id": "C26", "title": "`put:at:` changes exactly one position", "statement": "After `l put: x at: n` (n >= 1) `l at: n` answers x, every other position answers what it did before, and the list is padded with Nil if n lies beyond its end.", "quantifier": "for all list histories, positions and values", "why_tests_cant": "Depends on the window position left behind by earlier operations.", "anchors": ["collections.c: ctr_array_put"]}
{"id": "C27", "title": "`+` and `copy` on lists", "statement": "`a + b` contains the elements of a followed by those of b; `copy` contains the elements of the original; the operands keep their contents and later changes to the result do not affect them.", "quantifier": "for all list histories", "why_tests_cant": "The copy loop indexes differently once elements have been shifted off.", "anchors": ["collections.c: ctr_array_add, ctr_array_copy, ctr_array_get"]}
{"id": "C28", "title": "`find:` on lists answers the first matching position", "statement": "`l find: x` answers the least n with `l at: n` equal to x, and Nil if there is none.", "quantifier": "for all list histories and values", "why_tests_cant": "Depends on the window position and on equal prefixes of the rendered values.", "anchors": ["collections.c: ctr_array_index_of"]}
{"id": "C29", "title": "`minimum` and `maximum` of a list", "statement": "`minimum` (`maximum`) is the least (greatest) numeric value among the present elements, 0 for the empty list.", "quantifier": "for all list histories", "why_tests_cant": "Elements that were shifted off stay in the buffer.", "anchors": ["collections.c: ctr_array_min, ctr_array_max"]}
{"id": "C30", "title": "Sub-lists and splicing", "statement": "`l from: n length: m` answers positions n..n+m-1; `l replace: n length: m with: r` answers a list of the elements before n, then r, then the elements from n+m on.", "quantifier": "for all list histories, positions and lengths", "why_tests_cant": "Position arithmetic at both borders and after shifts.", "anchors": ["collections.c: ctr_array_from_length, ctr_array_splice"]}
{"id": "C31", "title": "Maps behave like finite maps", "statement": "Every sequence of put:at:, at:, delete, count on a map answers what the same operations on a mathematical finite map with text keys answer; a key is never present twice.", "quantifier": "for all finite operation histories and keys", "why_tests_cant": "Unbounded histories with overwriting and deleting in every order, hash collisions included.", "anchors": ["world.c: ctr_internal_object_find_property, ctr_internal_object_delete_property, ctr_internal_object_add_property, ctr_internal_object_set_property", "collections.c: ctr_map_put, ctr_map_get, ctr_map_delete, ctr_map_count"]}
{"id": "C32", "title": "Map iteration visits every entry once, in order of (latest) insertion", "statement": "`each:` runs its block exactly once for each entry present when it starts, oldest binding first; entries and values enumerate the same bindings in corresponding positions.", "quantifier": "for all map histories and all blocks", "why_tests_cant": "Iteration runs over a copy whose order is reversed twice; overwriting moves entries.", "anchors": ["collections.c: ctr_map_each, ctr_map_keys, ctr_map_values, ctr_map_copy"]}
{"id": "C33", "title": "Message dispatch follows the prototype chain", "statement": "A message runs the method of the nearest object on the receiver's prototype chain that understands it and is not already being executed (unless the receiver has just been asked for recursion); if no object does, the receiver is sent respond:... with the message name and the arguments. An object in chain mode answers itself.", "quantifier": "for all object graphs, messages and stacks of running methods", "why_tests_cant": "Chains and method stacks of any depth.", "anchors": ["world.c: ctr_send_message"]}
{"id": "C34", "title": "Variables: nearest definition wins and assignment updates it", "statement": "A reference denotes the binding in the innermost running task that defines the name, else the one of World, else it is an error; assignment without declaration updates exactly that binding of a running task and is an error when there is none; declaration affects only the innermost task; `own` names are properties of the receiver.", "quantifier": "for all stacks of scopes and names", "why_tests_cant": "Arbitrary nesting and shadowing.", "anchors": ["world.c: ctr_find, ctr_set, ctr_assign_value, ctr_assign_value_to_local"]}
{"id": "C35", "title": "Scopes are balanced and nesting is bounded", "statement": "However a task, message or program ends (normally, by return, break or error) the scope stack, the stack of running methods and the message level afterwards are those before; too deep nesting (more than 300 scopes) is reported as an error without running the task and without writing outside the scope table, and the process never ends for an unbalanced message level.", "quantifier": "for all programs and recursion depths", "why_tests_cant": "Depth is unbounded and depends on the program.", "anchors": ["world.c: ctr_open_context, ctr_close_context", "base.c: ctr_block_run"]}
{"id": "C36", "title": "Garbage collection never frees a reachable object", "statement": "After a collection every object reachable from a live scope (through variables, list elements, map entries, properties, methods or prototypes) still exists with its contents, and every unreachable non-permanent object is gone.", "quantifier": "for all object graphs, including cyclic ones", "why_tests_cant": "Reachability over arbitrary cyclic graphs.", "anchors": ["system.c: ctr_gc_mark, ctr_gc_sweep, ctr_gc_internal_collect"]}
{"id": "C37", "title": "Memory accounting is exact and the limit holds", "statement": "At every moment the amount reported by the memory ledger equals the total of the blocks handed out and not yet returned, it never exceeds the configured limit by way of an allocation, and it is zero once everything has been freed.", "quantifier": "for all histories of allocate, reallocate and free", "why_tests_cant": "Unbounded histories; the pool rounds block sizes.", "anchors": ["memory.c: ctr_heap_allocate, ctr_heap_free, ctr_heap_reallocate"]}
{"id": "C38", "title": "Live memory blocks never overlap", "statement": "With the pool enabled two live blocks are always disjoint, every block is at least as large as requested, and memory of the pool is never returned to the system allocator nor the other way round.", "quantifier": "for all pool sizes and all histories of allocate and free", "why_tests_cant": "Free lists of three size classes reused in any order.", "anchors": ["memory.c: ctr_pool_init, ctr_pool_alloc, ctr_pool_dealloc, ctr_pool_bucket, ctr_heap_allocate, ctr_heap_free"]}
{"id": "C39", "title": "The lexer never writes outside its token buffer", "statement": "Reading any program text either yields tokens of at most 255 bytes or reports that the token buffer is exhausted; it never writes beyond the buffer.", "quantifier": "for all program texts", "why_tests_cant": "Only over-long tokens of particular kinds reach the boundary.", "anchors": ["lexer.c: ctr_clex_tok"]}
{"id": "C40", "title": "Text literals denote their contents", "statement": "For every text without escape characters and special signs and with balanced quotation marks, the literal between quotation marks denotes exactly that text, and reading continues right behind the closing mark.", "quantifier": "for all such texts, nesting depths and following program text", "why_tests_cant": "Unbounded nesting.", "anchors": ["lexer.c: ctr_clex_readstr"]}
{"id": "C41", "title": "Parsing inverts pretty-printing (message precedence)", "statement": "For every program built from unary, binary and keyword messages, cascades, assignments, blocks, returns and parentheses, with names that fit the buffers (255 bytes), parsing any written form of it - with arbitrary white space and comments between the tokens - yields exactly that program: unary binds tighter than binary, binary tighter than keyword, binary associates to the left. No text is a written form of two programs.", "quantifier": "for all programs, layouts and languages whose words can be told apart", "why_tests_cant": "Arbitrary nesting of the three message kinds.", "anchors": ["parser.c: ctr_cparse_expr, ctr_cparse_message, ctr_cparse_messages, ctr_cparse_receiver"]}
{"id": "C42", "title": "Translating a program and translating back is the identity", "statement": "Translating with a dictionary and translating the result with the reverse dictionary gives back the original program text, if all its words occur in the dictionary.", "quantifier": "for all programs and all unambiguous dictionaries", "why_tests_cant": "All dictionaries and all programs.", "anchors": ["translator.c: ctr_translate_translate, ctr_translate_load_dictionary, ctr_translate_program"]}
{"id": "C43", "title": "Calendar arithmetic", "statement": "Adding and subtracting the same amount of a fixed-length unit (seconds, minutes, hours, days) to a moment gives the moment back; `=` on moments is an equivalence relation.", "quantifier": "for all moments, zones and amounts", "why_tests_cant": "All moments and zone names.", "anchors": ["system.c: ctr_clock_add, ctr_clock_subtract, ctr_clock_equals"]}
{"id": "C44", "title": "Files: what was written is what is read", "statement": "After `f write: t` succeeds `f read` answers t and `f size` its number of bytes; `append:` adds at the end; `delete` makes `exists` False; other files are untouched.", "quantifier": "for all file-system states, paths and contents (including NUL bytes)", "why_tests_cant": "All contents and histories.", "anchors": ["file.c: ctr_file_read, ctr_file_write, ctr_file_append, ctr_file_size, ctr_file_delete, ctr_file_exists"]}
{"id": "C45", "title": "JSON escaping is reversible", "statement": "Unescaping an escaped text with the characters used by the Json object gives the text back, and neither direction overruns its buffer.", "quantifier": "for all texts", "why_tests_cant": "Backslashes before ordinary letters interact with control-character letters.", "anchors": ["plugins/jsmn/jsmn.c: ctr_string_escape, ctr_string_unescape"]}
{"id": "C46", "title": "Restricted evaluation only builds data", "statement": "While a stored object description is evaluated (`text object`), the only built-in operations that can run are the nine data constructors and conversions, whatever the text contains, whether or not the evaluation ends; afterwards the restriction is lifted.", "quantifier": "for all messages and receivers", "why_tests_cant": "All texts an attacker may supply.", "anchors": ["world.c: ctr_send_message", "base.c: ctr_string_eval"]}
{"id": "C47", "title": "Sandbox step limit", "statement": "In sandbox mode no program evaluates more than 2000 nodes and messages, at any moment of its execution.", "quantifier": "for all programs", "why_tests_cant": "All, in particular non-terminating, programs.", "anchors": ["walker.c: ctr_cwlk_expr, ctr_cwlk_run"]}
{"id": "C48", "title": "Rendering a list or map to text is independent of earlier failures", "statement": "`string` on a list or map that is nested less deeply than the limit always succeeds, even after an over-deep value has been reported as an error.", "quantifier": "for all histories of renderings", "why_tests_cant": "The depth counter is global state that survives errors.", "anchors": ["collections.c: ctr_array_to_string", "collections.c: ctr_map_to_string"]}
{"id": "C49", "title": "Memory-limit settings", "statement": "`memory: n` accepts a number or a text with unit KB/MB and sets the limit to exactly the stated number of bytes.", "quantifier": "for all numbers and suffixes", "why_tests_cant": "All texts.", "anchors": ["system.c: ctr_gc_setmemlimit"]}
{"id": "C50", "title": "Building texts from parts", "statement": "A path (or command) written as a chain of messages denotes the parts joined by the separator in order, keyword colons removed.", "quantifier": "for all chains of messages", "why_tests_cant": "Chains of any length.", "anchors": ["system.c: ctr_slurp_respond_to, ctr_slurp_respond_to_and, ctr_slurp_obtain, ctr_path_respond_to, ctr_shellcommand_respond_to"]}
{"id": "C51", "title": "Texts neither leak nor free memory they do not own", "statement": "Whatever sequence of append:, uppercase, lowercase, replace:with: and trim is sent to a text, memory is released exactly once: nothing that is not owned is freed and no block is lost (the interpreter reports a leak and fails at exit otherwise).", "quantifier": "for all texts and all sequences of mutating messages", "why_tests_cant": "Histories are unbounded and the failure shows only as a leak or corrupted allocator.", "anchors": ["base.c: ctr_string_append, ctr_string_to_upper, ctr_string_to_lower, ctr_string_replace_with, ctr_string_trim", "system.c: ctr_gc_sweep"]}
{"id": "C52", "title": "A map changes only through messages to the map", "statement": "The bindings of a map are changed only by put:at:, key messages and delete; in particular what `entries` answers can be changed freely without affecting the map.", "quantifier": "for all maps and all later uses of their entries", "why_tests_cant": "The entries share the key objects; every use of every entry would have to be tried.", "anchors": ["collections.c: ctr_map_keys", "world.c: ctr_internal_object_find_property"]}
{"id": "C53", "title": "Fresh memory is zero-filled", "statement": "A block handed out by the memory manager contains only zero bytes, as its documentation promises.", "quantifier": "for all histories of memory operations, with and without the pool", "why_tests_cant": "Depends on what the recycled memory held before.", "anchors": ["memory.c: ctr_heap_allocate, ctr_pool_alloc, ctr_pool_dealloc"]}
{"id": "C54", "title": "Tracked memory is released exactly once", "statement": "Rewinding the tracker releases exactly the blocks tracked since the mark, and the final clean-up releases every tracked block and the tracking table itself, each once.", "quantifier": "for all histories of tracked and untracked memory operations", "why_tests_cant": "Unbounded histories with resizing of the table and of tracked blocks.", "anchors": ["memory.c: ctr_heap_allocate_tracked, ctr_heap_reallocate_tracked, ctr_heap_tracker_rewind, ctr_heap_free_rest"]}
{"id": "C55", "title": "Returned pool memory is used again", "statement": "A pod given back to the pool serves a later request of its class before the C library is asked.", "quantifier": "for all histories of allocate and free", "why_tests_cant": "Only shows once a class has been used up.", "anchors": ["memory.c: ctr_pool_bucket, ctr_pool_alloc"]}
{"id": "C56", "title": "A text fills in its slots", "statement": "A keyword message that a text does not understand replaces every occurrence of the message name (without the colon) in the text by the argument, scanning from left to right; a message name without colon is used as it is.", "quantifier": "for all texts, slot names and arguments", "why_tests_cant": "Overlapping occurrences, slots longer or shorter than their replacement and slots at the ends need all texts.", "anchors": ["base.c: ctr_string_fill_in, ctr_string_replace_with"]}
{"id": "C57", "title": "Truth value of a text", "statement": "A text converts to True exactly when it has at least one byte, whatever the bytes are (also \"0\", blanks and NUL).", "quantifier": "for all texts", "why_tests_cant": "All byte strings.", "anchors": ["base.c: ctr_string_to_boolean"]}
{"id": "C58", "title": "Arithmetic answers the closest number there is", "statement": "+, -, *, / and their in-place forms (add:, subtract:, multiply:, divide:) answer, or set the receiver to, a finite number no other representable number is closer to the exact result than; whole numbers up to 2^53 are computed exactly; the square root is the representable number on the right side of every midpoint, and exact for perfect squares.", "quantifier": "for all finite numbers whose exact result is below 2^1023", "why_tests_cant": "There are 2^128 pairs of operands; cancellation, subnormal results and ties are rare.", "anchors": ["base.c: ctr_number_add, ctr_number_inc, ctr_number_minus, ctr_number_dec, ctr_number_multiply, ctr_number_mul, ctr_number_divide, ctr_number_div, ctr_number_sqrt"]}
{"id": "C59", "title": "Numbers are written and read correctly", "statement": "Reading a decimal numeral gives the representable number closest to it; writing a number gives a decimal numeral without superfluous zeros that differs from it by at most half a unit of the tenth decimal.", "quantifier": "for all numerals and all finite numbers", "why_tests_cant": "Rounding at the last digit and buffer limits depend on the value.", "anchors": ["base.c: ctr_build_number_from_string, ctr_string_to_number, ctr_number_to_string_flat, ctr_number_to_string"]}
{"id": "C60", "title": "Numbers survive being written and read back", "statement": "A whole number written in the local notation and read back is the same number; a tidy numeral of at most ten decimals below 2^19 read and written again is the same text, in plain and in local notation.", "quantifier": "for all whole numbers up to 2^53, all such numerals and all one-byte separators", "why_tests_cant": "Needs the composition of rounding, grouping, ungrouping and rounding for every value.", "anchors": ["base.c: ctr_string_to_number, ctr_number_to_string, ctr_international_number, ctr_national_number"]}
{"id": "C61", "title": "Floor, ceiling, rounding and absolute value", "statement": "floor answers the largest whole number not above the receiver, ceil the smallest not below it, round the nearest with halves away from zero, absolute the distance from zero; none of them rounds any further.", "quantifier": "for all finite numbers", "why_tests_cant": "Values just below a half or above 2^52 defeat the usual add-a-half implementations.", "anchors": ["base.c: ctr_number_floor, ctr_number_ceil, ctr_number_round, ctr_number_abs"]}
{"id": "C62", "title": "Zero is the only false number", "statement": "The boolean value of a number is False exactly when the number is zero.", "quantifier": "for all finite numbers", "why_tests_cant": "Fractions and numbers outside the range of an int are rarely tried.", "anchors": ["base.c: ctr_number_to_boolean"]}
{"id": "C63", "title": "Modulo is the exact remainder", "statement": "The modulo of a by b differs from a by a whole multiple of b exactly, is smaller in size than b and does not have the opposite sign of a.", "quantifier": "for all finite numbers and non-zero divisors", "why_tests_cant": "A remainder computed through a rounded quotient agrees on small operands only.", "anchors": ["base.c: ctr_number_modulo"]}
{"id": "C64", "title": "Bit operations work bit by bit", "statement": "and:, or: and either: of two numbers answer the number whose every two's complement bit is the conjunction, disjunction or exclusive disjunction of the operands' bits.", "quantifier": "for all numbers with whole part in the range of an int", "why_tests_cant": "2^64 operand pairs, negative operands included.", "anchors": ["base.c: ctr_number_bit_and, ctr_number_bit_or, ctr_number_bit_xor"]}
{"id": "C65", "title": "Parsing always comes to an end", "statement": "The parser answers on every program text, well formed or not: it never loops, and the number of its recursive steps is at most linear in the length of the text.", "quantifier": "for all byte sequences", "why_tests_cant": "An endless loop on one ill-formed text is not found by trying others.", "anchors": ["parser.c: ctr_cparse_program, ctr_cparse_message, ctr_cparse_block"]}
{"id": "C66", "title": "Json texts are read as the values they denote", "statement": "`Json parse: t` answers the map that the Json object t denotes: members in any number and nesting, white space anywhere between tokens, the escapes of JSON decoded, the last of several members with the same key kept; a text that is no Json object gives an error, never a read outside the text or the tokens.", "quantifier": "for all texts of the language, in unbounded nesting and length", "why_tests_cant": "The tokeniser walks parent links and the reader follows token sizes; a slip shows only for certain nestings.", "anchors": ["plugins/jsmn/jsmn.c: ctr_json_parse, ctr_jsmn_dump", "plugins/jsmn/jsmn/jsmn.c: jsmn_parse"]}
{"id": "C67", "title": "What Json writes, Json reads back", "statement": "For every map of nils, booleans, numbers, texts, lists and maps, `Json parse: (Json jsonify: m)` is the same map up to the order of items.", "quantifier": "for all maps, nested to any depth", "why_tests_cant": "Texts with quotes, backslashes and control characters and nested lists interact in unboundedly many ways.", "anchors": ["plugins/jsmn/jsmn.c: ctr_json_jsonify, ctr_json_parse"]}
{"id": "C68", "title": "The Json tokeniser stays inside its tokens", "statement": "For every text the pass that counts tokens ends, and the pass that writes them ends without asking for more tokens than were counted and without following a parent link out of the array.", "quantifier": "for all byte sequences", "why_tests_cant": "Ill-formed texts drive the two passes apart only in particular combinations of brackets.", "anchors": ["plugins/jsmn/jsmn/jsmn.c: jsmn_parse, jsmn_parse_string, jsmn_parse_primitive"]}
{"id": "C69", "title": "Listing a folder", "statement": "`File list: p` answers one item per entry of the folder that can be resolved, in the order given by the system, with its name and kind; no path is written outside its buffer.", "quantifier": "for all paths and all folders", "why_tests_cant": "Paths and names of any length up to the limits of the system.", "anchors": ["file.c: ctr_file_list"]}
{"id": "C70", "title": "Memory settings at the start", "statement": "The environment variables CITRINE_MEMORY_LIMIT_MB, CITRINE_MEMORY_MODE and CITRINE_MEMORY_POOL_SHARE set the limit in MB, the mode, and the share of the limit given to the pool.", "quantifier": "for all values of the three variables", "why_tests_cant": "All numbers, in particular those near the limits of the types.", "anchors": ["citrine.c: main"]}
{"id": "C71", "title": "Arguments of the command line", "statement": "`Program argument: n` answers the n-th argument counted from 1, and Nil when there is none; no memory outside the arguments is read.", "quantifier": "for all argument lists and numbers", "why_tests_cant": "Any number of arguments.", "anchors": ["system.c: ctr_program_argument, ctr_program_num_of_args"]}
{"id": "C72", "title": "Settings of the environment", "statement": "`Program setting: n` answers the value set last for n, Nil when it was removed, and setting one name leaves the others alone.", "quantifier": "for all histories of settings", "why_tests_cant": "Histories of any length and any names.", "anchors": ["system.c: ctr_program_get_env, ctr_program_set_env"]}
{"id": "C73", "title": "What is read is what was sent", "statement": "`ask` answers the next line of the input, `input` all of it without the last line feed, and `shell:` everything the command writes, whatever the length.", "quantifier": "for all inputs", "why_tests_cant": "Inputs of any length around the sizes of the buffers.", "anchors": ["system.c: ctr_program_waitforinput, ctr_program_input, ctr_program_shell"]}
{"id": "C74", "title": "Parts of a moment", "statement": "A part of a moment (year, month, day, hour, minute, second) that is set is read back, if the resulting date exists in the zone of the moment; larger parts stay and smaller ones start again. All parts, also the day of the week and of the year, are those of the zone of the moment.", "quantifier": "for all moments, zones, parts and values", "why_tests_cant": "All moments, zones and dates.", "anchors": ["system.c: ctr_clock_set_time, ctr_clock_get_time, ctr_clock_weekday, ctr_clock_yearday"]}
{"id": "C75", "title": "Months and years later", "statement": "Adding or subtracting months or years keeps the day and the time of day.", "quantifier": "for all moments, zones and amounts", "why_tests_cant": "All moments, zones and amounts; the exceptions lie at the ends of months and at the changes of summer time.", "anchors": ["system.c: ctr_clock_change"]}
{"id": "C76", "title": "A translated program is the same program in the other language", "statement": "Translating a program whose words all occur in the dictionary gives the same program in the other language: names, texts, numbers and signs are replaced one by one, and the parts of a message by the parts of the translation of the whole message, wherever its arguments end.", "quantifier": "for all programs, languages and dictionaries", "why_tests_cant": "All programs: messages nest in the arguments of other messages without bound.", "anchors": ["translator.c: ctr_translate_program, ctr_translate_ref, ctr_note_collect, ctr_translate_load_dictionary", "lexer.c: ctr_clex_forward_scan, ctr_clex_backward_scan"]}
{"id": "C77", "title": "`each:` on a list visits every element once, in order", "statement": "`each:` runs the block for every element of the list, from the first to the last, with the position and the element; `continue` goes on with the next element, `break` ends the loop without a trace, an error ends it and is passed on. Elements that the block adds at the end are visited too; whatever the block does to the list, no memory outside of the list is read.", "quantifier": "for all lists, histories of lists and blocks", "why_tests_cant": "The block is arbitrary code that may change the list while it is gone through.", "anchors": ["collections.c: ctr_array_map"]}
{"id": "C78", "title": "`sort:` puts a list in the order of its block", "statement": "After `sort:` the list has the same elements as before, in the order that the block gives them.", "quantifier": "for all lists and all blocks whose answers order the elements", "why_tests_cant": "Lists and orders are unbounded; tests run one qsort only, while the outcome depends on the promises that the C library makes for consistent comparisons.", "anchors": ["collections.c: ctr_array_sort, ctr_sort_cmp"]}
{"id": "C79", "title": "`by:` pairs two lists", "statement": "`x by: y` answers a map in which the n-th element of y is the key of the n-th element of x; elements of y that are Nil or missing are left out.", "quantifier": "for all lists x and y", "why_tests_cant": "All lengths, all histories of both lists, and keys that occur more than once.", "anchors": ["collections.c: ctr_array_combine, ctr_array_get, ctr_map_put"]}
{"id": "C80", "title": "Request: fields of the address are what the browser sent", "statement": "`Request get:` answers the first value that was sent under a name in the query string, `getArray:` all of them in order, Nil and an empty list when there is none; escapes (%xx, +) are undone exactly. No query string, however malformed, makes the reader write outside of its memory.", "quantifier": "for all query strings, all ways of escaping them, all names", "why_tests_cant": "All byte strings and all combinations of escapes, separators and malformed escapes.", "anchors": ["plugins/request/ccgi-1.2/ccgi.c: CGI_decode_query, CGI_add_var, CGI_lookup, CGI_lookup_all", "plugins/request/request.c: ctr_request_string, ctr_request_array"]}
{"id": "C81", "title": "Request: cookies are what the browser sent", "statement": "`Request cookie:` and `cookieArray:` answer the values of the cookies that the browser sent, quoted or not.", "quantifier": "for all lists of cookies and all names", "why_tests_cant": "All names, values, quotation marks and neighbours.", "anchors": ["plugins/request/ccgi-1.2/ccgi.c: scanattr, CGI_get_cookie"]}
{"id": "C82", "title": "Request: posted fields are what the browser sent", "statement": "`Request post:` and `postArray:` answer the fields of an URL-encoded body of the announced length; what follows the body is not read, and a body that is cut off gives no fields at all.", "quantifier": "for all bodies, lengths and trailing bytes", "why_tests_cant": "All bodies and all disagreements between body and length.", "anchors": ["plugins/request/ccgi-1.2/ccgi.c: CGI_get_post, CGI_decode_query"]}
{"id": "C83", "title": "Request: multipart forms are read part by part", "statement": "For a multipart form, fields are answered with exactly the bytes sent and uploads are stored in files with exactly the bytes sent, even if they contain pieces of the boundary, line ends or NUL bytes.", "quantifier": "for all boundaries, parts, contents and outcomes of creating files", "why_tests_cant": "The boundary is recognised by a hand-written automaton; whether it finds the first occurrence depends on all overlaps of content and boundary.", "anchors": ["plugins/request/ccgi-1.2/ccgi.c: read_multipart, copyvalue, scanheader, scanattr, readline"]}
{"id": "C84", "title": "Request: `file:` tells of uploaded files only", "statement": "`Request file:` answers the path of the temporary file and the name given by the sender for a file that was uploaded under the name, and an empty list otherwise.", "quantifier": "for all requests and names", "why_tests_cant": "Uploads and fields share one list of variables; the claim is about every request that anyone may send.", "anchors": ["plugins/request/request.c: ctr_request_file", "plugins/request/ccgi-1.2/ccgi.c: read_multipart, CGI_add_var"]}
{"id": "C85", "title": "Editor: left and right move over one whole character", "statement": "In an editable text, the left and right keys move the cursor over exactly one character of the text (however many bytes it has) or one whole line end, stop at both ends of the text, and change nothing else.", "quantifier": "for all texts in UTF-8 with normal line ends, all cursor positions", "why_tests_cant": "All mixtures of characters of one to four bytes and line ends, at every position.", "anchors": ["plugins/media/media.c: ctr_internal_media_move_cursor_left, ctr_internal_media_move_cursor_right, ctr_internal_cursormove"]}
{"id": "C86", "title": "Editor: home and end", "statement": "Home moves the cursor to the begin of its line, End to the end of its line; neither leaves the line.", "quantifier": "for all texts and cursor positions", "why_tests_cant": "The loops search for single bytes of a two-byte line end; the first and the last line are special.", "anchors": ["plugins/media/media.c: ctr_internal_media_move_cursor_to_first_char_of_cur_line, ctr_internal_media_move_cursor_to_end_of_cur_line"]}
{"id": "C87", "title": "Editor: up and down keep the column", "statement": "Up and down move the cursor to the same column (in characters) of the previous or next line, or to its end if it is shorter; page up and page down do so ten times.", "quantifier": "for all texts and cursor positions", "why_tests_cant": "Columns count characters, positions count bytes; lines of all lengths, empty lines, first and last line.", "anchors": ["plugins/media/media.c: ctr_internal_cursormove, ctr_internal_media_get_current_char_line, ctr_internal_media_move_cursor_to_first_char_of_prev_line"]}
{"id": "C88", "title": "Editor: typed text appears at the cursor", "statement": "Typed text, a line end (Return) or four spaces (Tab) are put in at the cursor, the cursor goes behind them, and nothing else of the text changes.", "quantifier": "for all texts, cursor positions and typed texts; all sizes of the buffer", "why_tests_cant": "The buffer grows by moving its end; whether it is intact depends on every previous edit.", "anchors": ["plugins/media/media.c: ctr_internal_media_textinsert, ctr_internal_media_keyhandler"]}
{"id": "C89", "title": "Editor: backspace and delete remove one character", "statement": "Backspace removes the character or line end before the cursor, Delete the one after it; at the ends of the text they do nothing.", "quantifier": "for all texts and cursor positions", "why_tests_cant": "All lengths of characters and all contents of the buffer.", "anchors": ["plugins/media/media.c: ctr_internal_media_textinsert"]}
{"id": "C90", "title": "Editor: the selection", "statement": "Moving the cursor with Shift held down selects what it passes; `selected` tells its begin and end in characters; Delete, Backspace, `cut` and `append:` remove or replace exactly the selection.", "quantifier": "for all texts, all sequences of cursor keys, in both directions", "why_tests_cant": "The selection is a pair of byte positions in global variables; all paths of the cursor lead to it.", "anchors": ["plugins/media/media.c: ctr_internal_media_get_selection, ctr_img_text_del, ctr_img_text_ins, ctr_media_select, ctr_internal_media_arrowkey_selection"]}
{"id": "C91", "title": "Editor: write: normalises line ends", "statement": "After `write:`, `text` answers the text with every line end (CR LF, CR or LF) as CR LF, every tab as a space and everything else as it was; doing it twice changes nothing more.", "quantifier": "for all texts", "why_tests_cant": "All sequences of CR, LF and other bytes; the buffer is enlarged while it is written.", "anchors": ["plugins/media/media.c: ctr_internal_media_normalize_line_endings, ctr_img_text, ctr_img_text_get"]}
{"id": "C92", "title": "Media: clipboard answers the text of the clipboard", "statement": "`Media clipboard` answers the text in the clipboard with normal line ends.", "quantifier": "for all texts in the clipboard", "why_tests_cant": "Whether the byte behind a block is zero is a matter of luck in a test.", "anchors": ["plugins/media/media.c: ctr_media_clipboard"]}
{"id": "C93", "title": "Editor: a click puts the cursor at the nearest gap", "statement": "A click puts the cursor into the line under the mouse, at the gap between characters that is nearest to it; dragging selects from there to the gap where the button is released.", "quantifier": "for all texts, fonts (any function from texts to widths), positions of the mouse and of the text", "why_tests_cant": "All widths of characters and all positions.", "anchors": ["plugins/media/media.c: ctr_internal_media_infercursorpos, ctr_internal_media_mousehandler"]}
{"id": "C94", "title": "Editor: a double click selects the word", "statement": "A double click selects the longest run of characters other than spaces and line ends around the cursor.", "quantifier": "for all texts and positions", "why_tests_cant": "All positions of words in all texts.", "anchors": ["plugins/media/media.c: ctr_internal_media_select_word"]}
{"id": "C95", "title": "Editor: a whole session", "statement": "After `write:` and any sequence of keys, `text` answers what the same keys make of the text in an editor that knows only characters, lines and a cursor, and the cursor is where that editor has it.", "quantifier": "for all texts in UTF-8 and all finite sequences of keys", "why_tests_cant": "Unboundedly many sequences of edits; each one depends on the buffer left by the previous ones.", "anchors": ["plugins/media/media.c: ctr_internal_media_keyhandler, ctr_internal_media_textinsert, ctr_internal_cursormove, ctr_img_text"]}
{"id": "C96", "title": "Package: what was added can be loaded", "statement": "After `add:` of files to a package, loading an asset by its name answers exactly the content of the file that was added under that name, whatever the other files hold; a name that was not added is not found; adding keeps what is in the package already.", "quantifier": "for all sequences of files, all contents (including NUL bytes), all names, all sizes of the pieces that are copied, all initial contents of the buffer", "why_tests_cant": "Unboundedly many sequences of files; the search reads names and numbers through a buffer with stale bytes.", "anchors": ["plugins/media/media.c: ctr_package_add, ctr_internal_media_load_asset"]}
{"id": "C97", "title": "Regex: process:do: replaces every match", "statement": "`process:do:` (and `process:do:options:`) answers the text with every match of the pattern, from left to right, replaced by what the block answers for it; the block is called once per match with the match and its groups; the rest of the text is unchanged. `!` switches the pattern off.", "quantifier": "for all texts, all patterns (sets of texts) that do not stand for the empty text, all matchers that follow POSIX, all blocks with any state", "why_tests_cant": "All patterns, texts and blocks; the offsets of each match are relative to the previous one.", "anchors": ["plugins/regex/regex.c: ctr_regex_find_pattern_options_do, ctr_regex_find_pattern_do"]}
{"id": "C98", "title": "Regex: matches: tells whether the text contains a match", "statement": "`matches:` answers True if and only if some part of the text is one of the texts the pattern stands for; a pattern that is not accepted raises an error; `process:do:` calls its block if and only if `matches:` answers True.", "quantifier": "for all texts, patterns and matchers that follow POSIX", "why_tests_cant": "All patterns and texts.", "anchors": ["plugins/regex/regex.c: ctr_regex_matches"]}
{"id": "C99", "title": "Equality of values is an equivalence", "statement": "`=` between values is reflexive, symmetric and transitive, and `≠` always answers the opposite of `=`; a text that is equal to a whole number is a text the number is equal to.", "quantifier": "for all values of every kind (Nil, truth values, numbers with or without qualification, texts, objects), all words and separators of a language, all answers of objects", "why_tests_cant": "All pairs and triples of values of all kinds; the conversions of numbers to texts and back are involved.", "anchors": ["core/base.c: ctr_object_equals, ctr_bool_eq, ctr_number_eq, ctr_string_eq and their negations", "core/world.c: ctr_internal_cast2number, ctr_internal_cast2string, ctr_internal_cast2bool"]}
{"id": "C100", "title": "Truth values follow the laws of logic", "statement": "Every value has exactly one truth (Nil, zero and the empty text are false); `and:`, `or:`, `nor:`, `not` and `=` of truth values compute conjunction, disjunction and so on of the truths, so that the laws of logic (De Morgan, associativity) hold; a truth value survives being turned into a number and back.", "quantifier": "for all truth values and all arguments of any kind", "why_tests_cant": "All values of all kinds, including numbers whose conversion to int is undefined.", "anchors": ["core/base.c: ctr_bool_not, ctr_bool_and, ctr_bool_or, ctr_bool_nor, ctr_bool_either_or, ctr_bool_to_number", "core/world.c: ctr_internal_cast2bool"]}
{"id": "C101", "title": "A moment is written with its date and time", "statement": "In every language the text of a moment shows the date and the time in its zone, in the form of that language; two moments have the same text exactly when their local dates and times are the same, to the second; as a number a moment is its second, and `new:` of that number is the same moment again.", "quantifier": "for all moments within 285 million years, all zones, all 114 languages, any padding of short years", "why_tests_cant": "All moments, zones and languages; tests run with the current time.", "anchors": ["system.c: ctr_clock_to_string, ctr_clock_to_number, ctr_clock_new_set", "i18n/*/msg.h: CTR_STDDATEFRMT", "i18n/*/dictionary.h: CTR_DICT_TIME"]}
{"id": "C102", "title": "Moments sort by their texts", "statement": "In languages that write year-month-day, the text of a moment is before the text of another (`<`) exactly when its local time is earlier.", "quantifier": "for all pairs of moments in years of four digits, in any zones", "why_tests_cant": "All pairs of moments.", "anchors": ["system.c: ctr_clock_to_string", "base.c: ctr_string_before, ctr_string_after"]}
{"id": "C103", "title": "The week of a moment", "statement": "`week` answers the number of Mondays of the year up to the day of the moment, a number from 0 to 53; seven days later in the same year it is one more.", "quantifier": "for all moments, zones and separators of numbers", "why_tests_cant": "All moments; the week is written as a text and read as a number of the language.", "anchors": ["system.c: ctr_clock_week"]}
{"id": "C104", "title": "The bytes of a Blob", "statement": "Filling a Blob with numbers from -128 to 127: from the first byte exactly these are read back, the rest of the Blob and Blobs with other memory stay as they were. A new Blob has zeros; a Blob made of a text reads as that text without NUL bytes; a Blob can be freed twice, and freeing it leaves the others alone.", "quantifier": "for all memories, Blobs, lists of bytes that fit, texts, and addresses", "why_tests_cant": "All contents and sizes; that other memory is untouched cannot be observed by a test.", "anchors": ["plugins/media/media.c: ctr_blob_new_set, ctr_blob_fill, ctr_blob_read, ctr_blob_free, ctr_blob_tostring, ctr_blob_utf8_set", "memory.c: ctr_heap_allocate, ctr_heap_free"]}
{"id": "C105", "title": "Numbers in native types come back", "statement": "For each of the 16 names of whole number types, a whole number in the range of the type is passed in two's complement, lowest byte first, and is the same number when taken back; every number survives `double`, every number of at most 24 binary digits survives `float`, the pointer of a Blob survives `pointer`; no other names are types; `Blob new: x type: t` holds these bytes and `deref` of a pointer gives the memory it points to.", "quantifier": "for all numbers (doubles), all types, all memories", "why_tests_cant": "All numbers of all types, up to 64 bits.", "anchors": ["plugins/media/media.c: ctr_internal_media_ffi_map_type, ctr_internal_media_ffi_convert_value, ctr_internal_media_ffi_convert_value_back, ctr_blob_new_set_type, ctr_blob_deref"]}
{"id": "C106", "title": "A native function is called with the arguments given", "statement": "A linked function that is called with as many arguments as it has, of its types (none, one, two, three, or in a list), gets them in that order in their native form, and its native answer is answered; a list of more than 20 is an error.", "quantifier": "for all linked functions, native behaviours, arguments and memories", "why_tests_cant": "The native function is arbitrary; all signatures of up to 20 arguments.", "anchors": ["plugins/media/media.c: ctr_media_ffi_respond_to, ctr_media_ffi_respond_to_and, ctr_media_ffi_respond_to_and_and, ctr_media_ffi_respond_to_and_and_and"]}
{"id": "C107", "title": "Linking a native function", "statement": "`link:` with a proper specification makes an object of the name with the message for the function with its types, or with Nil adds the message to the object before; objects of other names keep their functions; errors leave objects and functions as they were.", "quantifier": "for all specifications, libraries and worlds", "why_tests_cant": "All sequences of links, any library.", "anchors": ["plugins/media/media.c: ctr_internal_media_ffi, ctr_media_link_package"]}
{"id": "C108", "title": "Built-in objects and messages in every language", "statement": "In each of the 114 languages every built-in object is found under its name and can be written by it; every built-in message runs the same function as its English counterpart (no name hides another); and with as many arguments as the English message has, the message can be written in that language and is sent as such, with these arguments.", "quantifier": "for all languages, objects, messages, receivers, arguments and hash keys", "why_tests_cant": "114 languages times 267 messages times all receivers and arguments; a test suite is run in two languages.", "anchors": ["world.c:ctr_initialize_world, ctr_internal_create_func, ctr_send_message", "i18n/*/dictionary.h"]}
{"id": "C109", "title": "Media: timers ring after their time, once, and none is missed", "statement": "A timer of the Media plug-in rings only after the time it was asked for, once for every time it was asked, and not after it was stopped or asked anew; every look at the timers rings all that are due, in the order of their numbers; numbers that are no timers are reported and change nothing.", "quantifier": "for all programs, listeners (which may set timers or raise errors), sequences of frames and events, and clocks", "why_tests_cant": "Depends on the order of requests, frames and listeners and on what listeners do with the timers during a look; tests have no clock of 24 days.", "anchors": ["plugins/media/media.c:ctr_media_timer, ctr_internal_media_update_timers, ctr_internal_media_reset"]}
{"id": "C110", "title": "Media: images do not end up inside solid images; collisions are told to both", "statement": "After an image ran into a solid image it no longer overlaps it, and no other image has moved; an image with gravity that comes down on the upper part stands on it. Every pair of overlapping images is told about the collision, each of the two once per check; images that are fixed or collected never take part.", "quantifier": "for all places (multiples of 2^-20 up to 2^29), sizes, directions of approach, numbers of images and film strips", "why_tests_cant": "Depends on the relation of two rectangles before and after a step, with rounding of doubles to pixels on both axes; tests place a few images.", "anchors": ["plugins/media/media.c:ctr_internal_media_image_resolvecollision1, ctr_internal_media_image_resolvecollision, ctr_internal_media_detect_collisions, ctr_internal_media_image_maprect"]}
{"id": "C111", "title": "Media: the player stays in the window", "statement": "After its motion in a frame, however it moved, jumped, fell or was carried, the place of the player is within the window (in platform games it may jump out at the top).", "quantifier": "for all games, speeds, frame times, listeners of arrivals, and control modes below 5", "why_tests_cant": "Speeds, gravity and time steps are arbitrary doubles, including infinities.", "anchors": ["plugins/media/media.c:ctr_internal_media_image_calculate_motion"]}
{"id": "C112", "title": "Media: images arrive where they are sent and are told once; friction never reverses", "statement": "An image on its way is told that it arrived in the step that passes its destination, only then, and afterwards has no direction; friction reduces the speed to zero and never below.", "quantifier": "for all finite places, destinations, speeds and time steps, whatever sine and cosine answer", "why_tests_cant": "Rounding decides whether a step passes the destination; the number of step sizes is unbounded.", "anchors": ["plugins/media/media.c:ctr_internal_media_image_calculate_motion, ctr_img_mov_set"]}
{"id": "C113", "title": "Media: keys steer the player", "statement": "The latest key event that concerns the direction decides where the player goes; the direction is none or an angle from 0 to 359; the player goes there, never backwards and never faster than its speed; a jump begins only with the up key, for a player with gravity that is not jumping. No sequence of key and mouse events crashes the program.", "quantifier": "for all sequences of events, whatever control mode, player, freezing and focus the program sets between two of them", "why_tests_cant": "Depends on the whole history of key events interleaved with changes by the program; tests send no key events.", "anchors": ["plugins/media/media.c:ctr_internal_media_keydown_left, ctr_internal_media_keydown_right, ctr_internal_media_keydown_up, ctr_internal_media_keydown_down, ctr_internal_media_keyup_right, ctr_internal_media_keyup_down, ctr_media_screen"]}
{"id": "C114", "title": "Media: the camera follows the player and stays on the map", "statement": "The camera never shows anything outside the map and moves by at most a pixel at a time; while the player stands still it comes to rest with the player in view, at least three tenths of its width from its edges, or at the end of the map. What is in view is drawn, at its place, and nothing else.", "quantifier": "for all maps, cameras, places of the player and images", "why_tests_cant": "A liveness property over unboundedly many frames and all sizes.", "anchors": ["plugins/media/media.c:ctr_internal_media_camera, ctr_internal_media_render_image"]}
{"id": "C115", "title": "Media: a click reaches the images under the pointer", "statement": "Exactly the images that contain the place of the click are told, each once, in the order of their creation, up to the first listener that ends in an error.", "quantifier": "for all lists of images at all places (multiples of 2^-20), sizes and film strips, all listeners", "why_tests_cant": "The comparison mixes doubles and pixels; the order and the number of images are arbitrary; tests do not click.", "anchors": ["plugins/media/media.c:ctr_internal_media_mouse_down"]}
{"id": "C116", "title": "Errors say what they should in every language", "statement": "The text of an error is its message in the chosen language with the reason of the operating system filled in; the text of a mistake in a program names what was found, the program and the line, and ends with the hint. Building the text is always well defined.", "quantifier": "for all 114 languages, all messages, tokens, hints, lines, paths of programs and reasons", "why_tests_cant": "The texts are format strings translated by hand for 114 languages and one of them is used as a format twice; tests run few languages and ordinary paths.", "anchors": ["util.c:ctr_error", "parser.c:ctr_cparse_emit_error_unexpected", "lexer.c:ctr_clex_tok_describe", "i18n/*/msg.h"]}
{"id": "C117", "title": "Media: commands for the operating system", "statement": "`sys:` runs the command once, in a terminal if there is one, and answers True exactly if it ended well; the terminal gets the command as it was given; no command is too long for its buffer.", "quantifier": "for all commands, values of TERMINAL and answers of the shell", "why_tests_cant": "Depends on lengths around a fixed buffer, on quoting and on what the shell answers; tests open no terminals.", "anchors": ["plugins/media/media.c:ctr_internal_media_external_command, ctr_media_system"]}
{"id": "C118", "title": "Media: replies from the network arrive complete", "statement": "The text answered by `send:to:` is the reply of the server, in whatever pieces the library delivers it.", "quantifier": "for all replies and all ways to cut them into pieces", "why_tests_cant": "The pieces depend on the network; a byte read beyond the end of a block is often a NUL by chance, so that tests pass.", "anchors": ["plugins/media/media.c:ctr_curl_write_callback, ctr_network_basic_text_send", "memory.c:ctr_heap_reallocate"]}
{"id": "C119", "title": "The command line, the environment and plug-ins are taken as given", "statement": "Citrine runs, guards, translates, or exports the file that is named on the command line, keeps the memory limit of the environment, and loads the plug-in named by an unknown object; everything else is an error, never undefined behaviour.", "quantifier": "for all command lines, numbers in the environment and names of objects", "why_tests_cant": "Lengths around fixed buffers, missing arguments, numbers out of range and names in all languages; tests use ordinary ones.", "anchors": ["citrine.c:ctr_cli_read_args, main", "util.c:ctr_internal_plugin_find"]}
{"id": "C120", "title": "The exported tree determines the program", "statement": "The text that option -x writes for a program determines its tree: two programs with the same text have the same tree, whatever bytes their names and texts contain.", "quantifier": "for all trees", "why_tests_cant": "Unambiguity of a format is a statement about all pairs of trees, including texts that look like the format itself.", "anchors": ["util.c:ctr_internal_export_tree", "parser.c:ctr_cparse_program"]}
{"id": "C121", "title": "Dictionaries are made from two headers and read back", "statement": "Option -g makes of the headers of two languages the dictionary with a line for every row; differing keys are an error that names them. A dictionary file is read line by line; it is accepted exactly if no word and no translation stands there twice and both separators are there; otherwise there is an error, never undefined behaviour.", "quantifier": "for all headers, with any blanks between their parts, and all dictionary files", "why_tests_cant": "Depends on lengths around fixed buffers, on what earlier rows left in them and on optional parts of lines; tests translate a few words.", "anchors": ["translator.c:ctr_translate_generate_dicts, ctr_translate_load_dictionary"]}
{"id": "C122", "title": "Every language can be translated into every other", "statement": "For any two of the 114 languages the dictionary made from their headers can be loaded, gives for every word and sign of the one that of the other, and a program written properly becomes the same program in the other language, and back again.", "quantifier": "for all pairs of languages, all ways to write their headers and all programs that are well formed", "why_tests_cant": "There are 12,882 pairs of languages and for each of them all programs; tests translate one program between two.", "anchors": ["translator.c:ctr_translate_generate_dicts, ctr_translate_load_dictionary, ctr_translate_program", "i18n/*/dictionary.h"]}
{"id": "C123", "title": "A text on an image is drawn as written", "statement": "The lines of a text written on an image are drawn below each other from the margins on, each line from left to right with nothing left out, the selected part with the colours exchanged, all in the font and colours the image has at that time, whatever was written on images before.", "quantifier": "for all texts, selections, scroll positions, fonts and colours, and all histories of writing and changing looks", "why_tests_cant": "The pictures of lines are cached by line number and shared by all images; whether an old picture is shown depends on the history of all images.", "anchors": ["plugins/media/media.c:ctr_internal_img_render_text, ctr_internal_media_clear_edcache, ctr_img_text, ctr_img_color, ctr_img_background_color, ctr_img_font"]}
{"id": "C124", "title": "The cursor is shown where the text will be inserted", "statement": "The cursor is drawn behind the part of its line that is before it, on the row of that line; a cursor out of view scrolls the text line by line until its line is in view, and then the text stays.", "quantifier": "for all texts, cursor positions and scroll positions", "why_tests_cant": "Depends on line ends before the cursor and on the frames since it moved; a test sees one position.", "anchors": ["plugins/media/media.c:ctr_internal_img_render_cursor"]}
{"id": "C125", "title": "Media: every image and sound shows and plays its own file, and nothing is used after it was released", "statement": "Every visible image shows the file it was loaded from, with the text last written on it in the font it had then; every sound and piece of music plays its own file; the collector may take any object the program does not use any more, and nothing that was released is used or released again; the documented limits are refused, not overrun.", "quantifier": "for all histories of making, loading, writing, hiding, playing, collecting and drawing, and all contents of the disc", "why_tests_cant": "Three tables, objects, SDL things and the collector interact; a use after release depends on when the collector runs, and a test usually does not see it.", "anchors": ["plugins/media/media.c:ctr_img_new, ctr_img_img, ctr_img_text, ctr_img_font, ctr_img_destructor, ctr_font_new, ctr_font_font, ctr_font_destructor, ctr_sound_new_set, ctr_music_new_set, ctr_sound_play, ctr_music_play, ctr_sound_destructor, ctr_music_destructor, ctr_media_screen"]}
{"id": "C126", "title": "Encoding for addresses loses nothing", "statement": "A text that is URL encoded and decoded again is the same text; a query string built from names and values, or from a list of variables, is read back as the same names and values in the same order; letters the caller wants to keep are left as they are; nothing is written outside the memory reserved.", "quantifier": "for all texts, names, values and sets of kept letters", "why_tests_cant": "All bytes and all combinations of special signs; the size of the block is computed by a second function that must agree with the writer.", "anchors": ["plugins/request/ccgi-1.2/ccgi.c:urlcount, urlencode, CGI_decode_url, CGI_encode_url, CGI_encode_query, CGI_encode_varlist, CGI_decode_query"]}
{"id": "C127", "title": "Base64 and hexadecimal digits give the bytes back", "statement": "Bytes are encoded in base64 as RFC 4648 says and as two hexadecimal digits each; decoding gives the bytes back; every other text is decoded or refused as documented, within the memory reserved.", "quantifier": "for all non-empty sequences of bytes and all texts to decode", "why_tests_cant": "All lengths modulo three, all bytes, all malformed inputs; block sizes are rounded by hand.", "anchors": ["plugins/request/ccgi-1.2/ccgi.c:CGI_decode_base64, CGI_encode_base64, CGI_decode_hex, CGI_encode_hex"]}
{"id": "C128", "title": "Entities keep a text from being read as HTML", "statement": "A text written with entities contains no sign that could end a tag or an attribute, and a browser shows exactly that text and no other.", "quantifier": "for all texts", "why_tests_cant": "Any missed sign is a cross-site scripting hole; tests try some of them.", "anchors": ["plugins/request/ccgi-1.2/ccgi.c:CGI_encode_entity"]}
{"id": "C129", "title": "Film strips show their frames in order", "statement": "An image with several frames shows exactly one of them, at its natural size: with autoplay the frames one after the other, each for the time the rate gives; otherwise the next frame every so many pixels while it moves, and the first one while it stands.", "quantifier": "for all strips, rates, positions and times", "why_tests_cant": "The frame depends on the clock and on doubles that are divided and rounded; faults show at borders, after weeks, and for odd rates.", "anchors": ["plugins/media/media.c:ctr_internal_media_anim_frames, ctr_img_reel, ctr_img_autoplay"]}
{"id": "C130", "title": "Pictures face the direction they go to", "statement": "Seen from above a picture is turned into its direction; in platform games and when hovering it is mirrored when it goes to the left; going up and down does not turn it; images that are not to be turned never are.", "quantifier": "for all directions, control modes, histories of directions and cameras", "why_tests_cant": "What is seen is the combination of an angle and a mirror; histories matter because the last side is remembered.", "anchors": ["plugins/media/media.c:ctr_internal_media_render_image, ctr_media_nodirani"]}
{"id": "C131", "title": "Programs that are included run as a whole", "statement": "When a program uses another program file, exactly the bytes of that file are run, however the system hands them out; a file that is missing is an error; no byte is written outside the memory for it.", "quantifier": "for all files and all ways in which reads may be short", "why_tests_cant": "Files on disk are nearly always read in full pieces; short reads, sizes at the border of a piece and failing reads do not occur in tests.", "anchors": ["plugins/media/media.c:ctr_media_include"]}
{"id": "C132", "title": "A canvas is a PNG or a JPEG file", "statement": "The screen message accepts PNG and JPEG files as a canvas and refuses every other file.", "quantifier": "for all contents of files", "why_tests_cant": "The kind depends on the first bytes of any file; a few sample files do not show which files are taken for which kind.", "anchors": ["plugins/media/media.c:ctr_internal_media_determine_filetype, ctr_media_screen"]}
{"id": "C133", "title": "Drawing on images draws what the list says", "statement": "Drawing a list of points and lines in a colour draws exactly these points and lines, in this order, in this colour, on this image; lines join their points wherever these are at that time; points and colours stay what they were set to.", "quantifier": "for all stores of objects, lists of shapes and sequences of messages to other objects", "why_tests_cant": "Points, lines and colours are shared objects; the result depends on what happened to all of them before.", "anchors": ["plugins/media/media.c:ctr_img_draw, ctr_point_xyset, ctr_line_from_to, ctr_color_rgb_set"]}
{"id": "C134", "title": "Images have the settings they were given", "statement": "An image has the settings (wall, active, bounce, static, ghost, visible, gravity, speed, friction, acceleration) it was given last, or the defaults, whatever is said to other images and however many frames pass; the image made controllable last is steered; places that are set are the places answered.", "quantifier": "for all sequences of new images, messages to them and frames", "why_tests_cant": "The settings live in one table that every frame rewrites, with collisions and movement in between; only an invariant over all histories excludes that a frame or another image changes them.", "anchors": ["plugins/media/media.c:ctr_img_new, ctr_img_solid, ctr_img_gravity, ctr_img_xy, ctr_img_controllable, ctr_img_freeze, ctr_img_jump_height"]}
{"id": "C135", "title": "Images are sent into the right direction", "statement": "Sending an image to a place points it there: 0 to the right, 90 up, 180 to the left, 270 down, exactly on the axes and in the right quarter otherwise; the place becomes the destination and nothing else changes.", "quantifier": "for all places and destinations up to 2^29 pixels away in steps of 2^-20", "why_tests_cant": "The angle goes through atan2, a product and a correction by 360, each rounded; the borders between the quarters are where this goes wrong.", "anchors": ["plugins/media/media.c:ctr_img_mov_set"]}
{"id": "C136", "title": "The server hands each request its own variables", "statement": "The SCGI server gives a request exactly the variables the web server sent, by name and value, leaves the body unread for the program, and reads whatever else is sent without harm.", "quantifier": "for all variables, bodies and bytes sent", "why_tests_cant": "What arrives on a socket is any sequence of bytes; the number in front, the zeros inside and the end may disagree in any way.", "anchors": ["plugins/request/ccgi-1.2/prefork.c: read_env"]}
{"id": "C137", "title": "The server keeps count of its children", "statement": "Whatever children say and whenever they end, the server knows which children it has and which are idle, never has too many, makes new ones when too few are idle, ends one only if too many are idle, and goes on serving.", "quantifier": "for all settings and all interleavings of the parent, forks that succeed or fail, messages and ends of children", "why_tests_cant": "The order of messages, signals and system calls is up to the kernel; the bad orders last a few instructions.", "anchors": ["plugins/request/ccgi-1.2/prefork.c: score_new, score_find, score_add, score_remove, score_update, score_kill, CGI_prefork_server", "plugins/request/request.c: ctr_request_serve"]}
{"id": "C138", "title": "Sealed texts open with their password only", "statement": "What was encrypted with a password is decrypted with it to the same bytes; whatever is decrypted carries the digest of its data under that password; any other text is refused without harm.", "quantifier": "for all data, passwords, random salts and texts to open, and all ciphers and digests of the right sizes", "why_tests_cant": "The salt is random, and forged texts may be any bytes.", "anchors": ["plugins/request/ccgi-1.2/crypt.c: digest, CGI_encrypt, CGI_decrypt"]}
{"id": "C139", "title": "Listeners hear what happens on a screen", "statement": "What happens on a screen (keys, clicks, buttons, timers, steps) is heard by the latest listener of the nearest object, with its arguments, once each and in order, until the screen is left, an error occurs or the window is closed; nothing else is heard.", "quantifier": "for all programs in listeners (registering, leaving, raising and catching errors), all chains of parents, all frames and events", "why_tests_cant": "Seven flags shared by all objects decide beside the tables of methods; events, errors and registrations come in any order.", "anchors": ["plugins/media/media.c: ctr_media_screen, ctr_media_on_do, ctr_media_event, ctr_media_event_coords, ctr_media_event_timer, ctr_media_end, ctr_media_fx", "base.c: ctr_object_on_do", "world.c: ctr_send_message"]}
{"id": "C140", "title": "A query asks what was written and answers its rows", "statement": "A query sends its parameters in their order; the answer has the rows in their order, each giving every column its value; closing finishes the connection once.", "quantifier": "for all commands, lists of parameters and results of the server", "why_tests_cant": "Names and numbers of columns, missing values and parameters are any; the database is any function.", "anchors": ["plugins/experimental/pg/pg.c: ctr_pg_query, ctr_pg_close", "collections.c: ctr_array_get"]}
{"id": "C141", "title": "Passwords are equal to their text and can be kept", "statement": "A password is equal to the text it was made from and otherwise as its hash says; from its hash it can be made again.", "quantifier": "for all texts, salts, hashes and hashing libraries that keep their promises", "why_tests_cant": "The hash is salted; whether a zero byte follows a text in memory depends on what was there before.", "anchors": ["plugins/experimental/crypt/crypt.c: ctr_hash_new, ctr_password_verify, ctr_password_to_string, ctr_password_from_hash"]}
{"id": "C142", "title": "The percolator makes as much coffee as there is", "statement": "Brewing makes as many cups as coffee and water are good for, says which is missing after that, and uses exactly what was poured in.", "quantifier": "for all amounts in steps of 2^-20 up to 2^32 and all numbers of cups", "why_tests_cant": "Amounts are doubles and shared objects; every amount has its own number of cups.", "anchors": ["plugins/mock/percolator/percolator.c: ctr_percolator_brew, ctr_percolator_add_coffee_water, ctr_percolator_new"]}
{"id": "C143", "title": "Structures are laid out and passed as C does", "statement": "A structure made of known types has the size and alignment that C gives it, however structures are nested and in whatever order functions are linked; a native function is given exactly the bytes of the Blob; releasing a structure leaves everything else alone.", "quantifier": "for all programs that make structures and link functions, all nestings, all memories and arguments", "why_tests_cant": "Nesting and the order of linking are unbounded; a wrong offset shows only for some mixtures of types, and reading too far shows nowhere.", "anchors": ["plugins/media/media.c: ctr_blob_new_struct, ctr_blob_free_struct, ctr_internal_media_ffi_map_type_obj, ctr_internal_media_ffi_convert_value, ctr_internal_media_ffi, ctr_blob_new_set_type"]}
{"id": "C144", "title": "A screen shows what its camera sees", "statement": "With a camera, the background is shown as a piece of the size last given to the camera, in the corner last given, never beyond the background, moving by at most a pixel for every thing drawn; images are seen through the camera, fixed ones stay in place; without a camera the whole background is shown at its size. A screen without a corner is enlarged to what the camera shows.", "quantifier": "for all sequences of messages, screens and drawn things", "why_tests_cant": "The messages can come between any two things that are drawn, over any number of screens, and the camera keeps its state between screens.", "anchors": ["plugins/media/media.c: ctr_media_width_height, ctr_media_left_top, ctr_internal_media_camera, ctr_internal_media_render_image, ctr_media_override"]}
{"id": "C145", "title": "A text on an image is clicked and edited where it is drawn", "statement": "After any settings a text begins where the last align-x:y: says and its lines are as high as the last line-height: says, between 1 and 100 pixels; a click in a row puts the cursor into its line at the nearest gap, the cursor is shown in its row behind the text before it, and a click on the cursor means the place where it is.", "quantifier": "for all sequences of settings, all places of the image and the mouse, all texts and fonts", "why_tests_cant": "Drawing, clicking and the cursor compute the place separately, with ints, doubles and unsigned numbers; they disagree only for some places.", "anchors": ["plugins/media/media.c: ctr_img_text_align, ctr_img_lineheight, ctr_internal_media_infercursorpos, ctr_internal_img_render_cursor, ctr_internal_img_render_text"]}
{"id": "C146", "title": "A number keeps its unit", "statement": "A word behind a number that is no message of numbers becomes its unit (3 dollars), in every language, and so do the words for the units of time and KB and MB. The number has the unit last sent or given by qualify:, until it gets another one; a copy has the same unit, arithmetic in place keeps it, results of arithmetic have none; the text of the number ends with it, and no other number is touched.", "quantifier": "for all programs of such messages, all words, all numbers, all languages and all hashes", "why_tests_cant": "Units are set by the fallback for unknown messages and stored as references to texts; whether a word is a message depends on the dictionary, and whether two numbers share a text depends on the whole history.", "anchors": ["base.c: ctr_number_qualify, ctr_number_qualification, ctr_number_copy, ctr_internal_number_to_string", "world.c: ctr_send_message, ctr_internal_cast2string", "i18n/*/dictionary.h"]}
{"id": "C147", "title": "The media plugin speaks every one of its languages", "statement": "In each language the media plugin is translated to, every message to one of its objects runs the same function as the English message, with the same number of arguments; messages of Object and of Audio stay reachable; every object of the plugin is found under its name and can be written, without hiding a name of the main program; and the messages for events are all different and no other message of Media or Image.", "quantifier": "for all languages of the plugin, all its objects and messages, all arguments and all hashes", "why_tests_cant": "Programs for the plugin are tested in one or two languages; a word used twice in a header, a forgotten sign for an argument or a space in a name compiles without warning and shows only when that message is used in that language.", "anchors": ["plugins/media/media.c: begin", "plugins/media/i18n/*/media.h", "world.c: ctr_internal_create_func, ctr_internal_object_add_property, ctr_send_message"]}
{"id": "C148", "title": "Programs that use the media plugin can be translated", "statement": "The dictionaries that the script of the media plugin makes from its headers and those of the language are loaded by the translator, contain every word of the language and of the plugin with its translation, and the texts that name events and entry points; with them, a program in English becomes the same program in the other language.", "quantifier": "for all languages of the plugin, all layouts of the four headers, all well-formed programs", "why_tests_cant": "A dictionary is rejected as a whole when one word occurs twice, and a text that names an event is only missed when that event is used; a test translates a few programs into a few languages.", "anchors": ["plugins/media/dicts.sh", "plugins/media/i18n/*/media.h", "translator.c: ctr_translate_generate_dicts, ctr_translate_load_dictionary, ctr_translate_program"]}
{"id": "C149", "title": "The plugins Request and Json are loaded by name and understood in their languages", "statement": "A program that uses the name of a plugin makes its file be loaded, and the name is known afterwards; the object answers each of its messages with the right function, written with as many arguments as that function reads, and the messages of Object with theirs; no name of the main program is hidden.", "quantifier": "for all builds of the two plugins, all their messages, all arguments and all hashes", "why_tests_cant": "Tests run one build in one language; a flag missing in a makefile gives a plugin that compiles and loads but adds another name.", "anchors": ["plugins/request/request.c: begin", "plugins/jsmn/jsmn.c: begin", "plugins/request/makefile", "plugins/jsmn/makefile", "util.c: ctr_internal_plugin_find"]}
{"id": "C150", "title": "A translated program is parsed into the same program", "statement": "A program and its translation are parsed, each in its own language, into the same program but for the words: the same receivers, messages, arguments, numbers and blocks in the same order, with every word and every message replaced by its translation in the dictionary. The messages of the standard objects have a name of one character in all languages or in none.", "quantifier": "for all pairs of languages, all dictionaries and all properly written programs", "why_tests_cant": "Tests translate some programs of one pair of languages and compare texts; whether every translation is still the same program depends on the lexer, the parser and the translator together.", "anchors": ["translator.c: ctr_translate_program", "translator.c: ctr_translate_ref", "lexer.c: ctr_clex_tok", "parser.c: ctr_cparse_messages"]}
