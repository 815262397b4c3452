{
 "claims": [
  {
   "property": "C01",
   "status": "proved",
   "theorems": [
    "C01_memmove"
   ],
   "note": ""
  },
  {
   "property": "C02",
   "status": "proved",
   "theorems": [
    "C02_memcpy",
    "C02_memcpy_noop",
    "C02_memcpy_overlap_up_refuted"
   ],
   "note": "the refuted theorem shows the stated limit of the contract (overlap with dest above src)"
  },
  {
   "property": "C03",
   "status": "proved",
   "theorems": [
    "C03_strlen",
    "C03_strcpy"
   ],
   "note": ""
  },
  {
   "property": "C04",
   "status": "proved",
   "theorems": [
    "C04_number",
    "C04_numeral_unique"
   ],
   "note": ""
  },
  {
   "property": "C05",
   "status": "proved",
   "theorems": [
    "C05_in_buffer"
   ],
   "note": ""
  },
  {
   "property": "C06",
   "status": "partial",
   "theorems": [
    "C06_terminated_refuted",
    "C06_terminated_partial",
    "C06_exact"
   ],
   "note": "false in the code when the output fills the buffer; holds otherwise; C06_exact tells exactly when a NUL is in the buffer"
  },
  {
   "property": "C07",
   "status": "partial",
   "theorems": [
    "C07_no_overread_refuted",
    "C07_no_overread_partial",
    "C07_formats",
    "C07_exact"
   ],
   "note": "false for formats that end inside a conversion; holds for all others; C07_formats and C07_exact tell which formats these are and exactly when the formatter reads on"
  },
  {
   "property": "C08",
   "status": "partial",
   "theorems": [
    "C08_format_partial",
    "C08_int64_min_refuted"
   ],
   "note": "all well-formed formats except %f (see C81), all argument values except -2^63 (undefined negation)"
  },
  {
   "property": "C09",
   "status": "partial",
   "theorems": [
    "C09_history_partial",
    "C09_empty_range_refuted",
    "C09_equal_int_refuted",
    "C09_exact",
    "C09_agree"
   ],
   "note": "every history is decided, right or wrong (C09_exact); all histories over several vectors; erase of an empty range moves elements onto themselves, == overflows an int at 2^31 elements"
  },
  {
   "property": "C10",
   "status": "partial",
   "theorems": [
    "C10_lifetimes",
    "C10_all_gone_partial",
    "C10_empty_buffer_refuted"
   ],
   "note": "all objects and all non-empty buffers; zero-sized buffers are never returned"
  },
  {
   "property": "C11",
   "status": "partial",
   "theorems": [
    "C11_push_back_partial",
    "C11_push_back_refuted",
    "C11_insert_partial",
    "C11_insert_refuted"
   ],
   "note": "exact characterisation; wrong value or use after free in the other cases"
  },
  {
   "property": "C12",
   "status": "proved",
   "theorems": [
    "C12_push_cost",
    "C12_capacity"
   ],
   "note": "element moves counted in the event trace"
  },
  {
   "property": "C13",
   "status": "partial",
   "theorems": [
    "C13_history_partial",
    "C13_no_front_partial",
    "C13_front_growth",
    "C13_front_refuted",
    "C13_33_fronts_refuted",
    "C13_any_length",
    "C13_no_front_any_length",
    "C13_exact",
    "C13_no_front_exact"
   ],
   "note": "all histories over several deques except front growth with two or more blocks, which writes out of bounds; C13_any_length decides every history of any length over deques of fewer than 2^31-2 elements and blocks: it runs as specified or is undefined"
  },
  {
   "property": "C14",
   "status": "partial",
   "theorems": [
    "C14_index_exact",
    "C14_index_partial",
    "C14_index_refuted",
    "C14_pushed_front_refuted"
   ],
   "note": "exact characterisation of d[i]; right only when the first element is at the start of the first block"
  },
  {
   "property": "C15",
   "status": "partial",
   "theorems": [
    "C15_empty_refuted"
   ],
   "note": "false for every reachable empty deque"
  },
  {
   "property": "C16",
   "status": "partial",
   "theorems": [
    "C16_any_length_partial",
    "C16_queue_partial",
    "C16_copy_empty_refuted",
    "C16_exact"
   ],
   "note": "all histories of any length with fewer than 2^31-3 pushes to a queue between two of its empty moments and no copy of an empty queue; every other such history is undefined"
  },
  {
   "property": "C17",
   "status": "proved",
   "theorems": [
    "C17_stack",
    "C17_copy_empty_refuted",
    "C17_exact"
   ],
   "note": "the refutation concerns copies, which the statement does not mention"
  },
  {
   "property": "C18",
   "status": "partial",
   "theorems": [
    "C18_storage_refuted",
    "C18_storage_partial",
    "C18_exact",
    "C18_limit",
    "C16_any_length_partial"
   ],
   "note": "false; the number of blocks after any pushes and pops is exact (C18_exact) and bounded by the longest run of pushes without emptying the queue"
  },
  {
   "property": "C19",
   "status": "partial",
   "theorems": [
    "C19_history_partial",
    "C19_no_leak",
    "C19_apart",
    "C19_equality_partial",
    "C19_clear_calls_null",
    "C19_strict_refuted",
    "C19_exact",
    "C19_agree",
    "C19_alien_refuted"
   ],
   "note": "every history is decided, right or wrong (C19_exact); all histories over several lists and iterators, if a member call through an unused null pointer is tolerated; strictly, clear() of a non-empty list is undefined"
  },
  {
   "property": "C20",
   "status": "partial",
   "theorems": [
    "C20_two_or_more",
    "C20_self_swap_refuted",
    "C20_one",
    "C20_empty_partial"
   ],
   "note": "false for every non-empty list"
  },
  {
   "property": "C21",
   "status": "proved",
   "theorems": [
    "C21_add",
    "C21_erase",
    "C21_erase_range",
    "C21_rest"
   ],
   "note": ""
  },
  {
   "property": "C22",
   "status": "proved",
   "theorems": [
    "C22_multiset",
    "C22_set"
   ],
   "note": "any strict weak order; fuel above the number of insertions"
  },
  {
   "property": "C23",
   "status": "proved",
   "theorems": [
    "C23_searches"
   ],
   "note": "after any program of insertions, erasures and clears that ended"
  },
  {
   "property": "C24",
   "status": "partial",
   "theorems": [
    "C24_rules_refuted",
    "C24_height_refuted",
    "C24_append_partial",
    "C24_height",
    "C24_insert_exact"
   ],
   "note": "false: the first rotation case colours the parent twice and never the grandparent; holds while insertions go to the end; C24_insert_exact tells from the tree before exactly which insertions break the rules"
  },
  {
   "property": "C25",
   "status": "partial",
   "theorems": [
    "C25_erase_partial",
    "C25_key_partial",
    "C25_programs_partial",
    "C25_hang_refuted",
    "C25_hang_exact"
   ],
   "note": "false: the rebalancing loop can run forever; otherwise exact, never undefined, and it ends and keeps the colour rules whenever they hold; C25_hang_exact tells from the tree before exactly which erasures do not end"
  },
  {
   "property": "C26",
   "status": "partial",
   "theorems": [
    "C26_duplicate_partial",
    "C26_iterator_refuted"
   ],
   "note": "false: exact characterisation of the iterator returned"
  },
  {
   "property": "C27",
   "status": "proved",
   "theorems": [
    "C27_neighbours",
    "C27_next"
   ],
   "note": ""
  },
  {
   "property": "C28",
   "status": "partial",
   "theorems": [
    "C28_any_length_partial",
    "C28_any_length_gone",
    "C28_history_partial",
    "C28_nothing_left"
   ],
   "note": "all histories of any length in which the handles existing at one time can be counted (fewer than 2^64 - 9, each taking 16 bytes); managed objects may hold the weak handle of enable_shared_from_this but no other handles (with other handles: C82)"
  },
  {
   "property": "C29",
   "status": "partial",
   "theorems": [
    "C29_dead_refuted",
    "C29_uncounted_refuted",
    "C29_leak_refuted",
    "C29_undisturbed_partial",
    "C29_ledger",
    "C29_counted_partial",
    "C29_any_length_partial",
    "C29_counted_any_length_partial"
   ],
   "note": "false: the exchange loop has its condition inverted; holds while no other thread changes the shared count during lock(), and more generally while every lock() that returns has exchanged exactly once; C29_ledger tells by how much the count is off after any schedule"
  },
  {
   "property": "C30",
   "status": "partial",
   "theorems": [
    "C30_any_length_partial",
    "C30_null_partial",
    "C30_use_count_refuted"
   ],
   "note": "null, but with use_count 1; after histories of any length"
  },
  {
   "property": "C31",
   "status": "partial",
   "theorems": [
    "C31_default_null_refuted",
    "C31_unique_ptr_partial",
    "C31_no_leak_partial"
   ],
   "note": "a default-constructed unique_ptr holds an indeterminate pointer; every other history is proved"
  },
  {
   "property": "C32",
   "status": "proved",
   "theorems": [
    "C32_interleavings",
    "C32_any_length"
   ],
   "note": "sequentially consistent atomics; plain class"
  },
  {
   "property": "C33",
   "status": "partial",
   "theorems": [
    "C33_bitset_refuted",
    "C33_bitset_high_half_refuted",
    "C33_bitset_partial",
    "C33_count_refuted"
   ],
   "note": "positions p with p mod 64 >= 32 are undefined (int shift), count() is the size; the rest is proved"
  },
  {
   "property": "C34",
   "status": "partial",
   "theorems": [
    "C34_pair_lex_refuted",
    "C34_pair_swo_refuted",
    "C34_pair_lex_partial",
    "C34_pair_lex_exact",
    "C34_pair_swo_exact",
    "C34_pair_consistent_partial"
   ],
   "note": "operator< is not lexicographic and not a strict weak order; it agrees with the lexicographic order exactly when the components are not opposed"
  },
  {
   "property": "C35",
   "status": "partial",
   "theorems": [
    "C35_compare_order_partial",
    "C35_shortlex_order",
    "C35_operators_partial",
    "C35_lexicographic_refuted"
   ],
   "note": "a total order consistent with equality (proved), but length first, not lexicographic"
  },
  {
   "property": "C36",
   "status": "partial",
   "theorems": [
    "C36_substr_partial",
    "C36_rest_partial",
    "C36_substr_exact",
    "C36_substr_refuted"
   ],
   "note": "pos beyond the end underflows; proved for pos <= size; C36_substr_exact tells the view for every position"
  },
  {
   "property": "C37",
   "status": "partial",
   "theorems": [
    "C37_reverse_walk_partial",
    "C37_back",
    "C37_reverse_index_partial",
    "C37_reverse_compare_refuted",
    "C37_reverse_compare_partial",
    "C37_jump_partial"
   ],
   "note": "traversal proved; the four ordering operators are mirrored"
  },
  {
   "property": "C38",
   "status": "partial",
   "theorems": [
    "C38_any_values_partial",
    "C38_any_cast_partial",
    "C38_source_unchanged_refuted",
    "C38_source_unchanged_partial",
    "C38_exact"
   ],
   "note": "value independence and casts proved, and every program decided (C38_exact); construction from a variable moves from it"
  },
  {
   "property": "C39",
   "status": "partial",
   "theorems": [
    "C39_copy_empty_refuted",
    "C39_copy_empty_always_refuted",
    "C39_function_partial",
    "C39_destroys_callable_refuted",
    "C39_exact",
    "C39_decided"
   ],
   "note": "which programs are defined is told exactly (C39_exact, C39_decided); copying an empty function dereferences null; callables are never destroyed; all other histories proved"
  },
  {
   "property": "C40",
   "status": "partial",
   "theorems": [
    "C40_moved_refuted",
    "C40_moved_source_refuted",
    "C40_copied_refuted",
    "C40_defer_partial",
    "C40_ledger",
    "C40_at_most_once",
    "C40_defined_exact"
   ],
   "note": "the move constructor is broken; histories without moves and copies proved as stated; for all histories C40_ledger counts the runs of every action and C40_defined_exact tells which commands are defined"
  },
  {
   "property": "C41",
   "status": "proved",
   "theorems": [
    "C41_no_lost_update",
    "C41_fetch_result",
    "C41_tickets_distinct",
    "C41_cas_report",
    "C41_cas_counter",
    "C41_reads_latest",
    "C41_last_write",
    "C41_exchange_passes_on",
    "C41_apply_result"
   ],
   "note": ""
  },
  {
   "property": "C42",
   "status": "partial",
   "theorems": [
    "C42_faithful_partial",
    "C42_bounded",
    "C42_stale_refuted",
    "C42_early_stop_refuted",
    "C42_long_refuted",
    "C42_reported",
    "C42_faithful_exact"
   ],
   "note": "what is reported is exact for every memory content (C42_reported), and so is which tables are reported as they are (C42_faithful_exact); no terminator is stored, types above 4 and zero lengths stop the scan"
  },
  {
   "property": "C43",
   "status": "partial",
   "theorems": [
    "C43_failure",
    "C43_first_word_partial",
    "C43_sound_partial",
    "C43_aligned_undefined",
    "C43_second_word_refuted",
    "C43_in_use_refuted",
    "C43_border_refuted",
    "C43_exact",
    "C43_handed_out_exact"
   ],
   "note": "right only for runs starting in the first bitmap word of a zone that starts at bit 1; wrong or undefined elsewhere; C43_exact gives the answer for every state, zone list and number"
  },
  {
   "property": "C44",
   "status": "partial",
   "theorems": [
    "C44_counts_partial",
    "C44_exact_partial",
    "C44_leak_refuted",
    "C44_zero_flags_refuted",
    "C44_boot_refuted",
    "C44_life",
    "C44_charged",
    "C44_any_length",
    "C44_counts_any_length_partial",
    "C44_exact_any_length_partial"
   ],
   "note": "every page, bit and zone account after any history with any flags (C44_life); consistent except that pages given back while lent keep their bit and zero flags charge a page that stays unused"
  },
  {
   "property": "C45",
   "status": "partial",
   "theorems": [
    "C45_gates_partial",
    "C45_absent_partial",
    "C45_absent_refuted"
   ],
   "note": "all installed gates for every previous content of the table; vectors without a stub are absent only if the table was zero, which nothing ensures (C72)"
  },
  {
   "property": "C46",
   "status": "partial",
   "theorems": [
    "C46_irq_partial",
    "C46_syscall_partial",
    "C46_irq_exact",
    "C46_syscall_exact",
    "C46_null_refuted"
   ],
   "note": "proved for all histories with non-null handlers; the null handler can be unregistered from a free line; C46_irq_exact and C46_syscall_exact decide every history"
  },
  {
   "property": "C47",
   "status": "proved",
   "theorems": [
    "C47_irq_path"
   ],
   "note": "8259 behaviour and the end-of-interrupt effect are modelled; spurious interrupts are not"
  },
  {
   "property": "C48",
   "status": "proved",
   "theorems": [
    "C48_irq_preserves",
    "C48_record",
    "C48_syscall_edits",
    "C48_handler_flag",
    "C48_segments_refuted",
    "C48_red_zone_refuted"
   ],
   "note": "all registers, rip, rsp, rflags and memory above the frame; the two refutations concern data segment registers and the red zone, which the statement does not promise"
  },
  {
   "property": "C49",
   "status": "partial",
   "theorems": [
    "C49_frames_partial",
    "C49_shifted_refuted",
    "C49_return_refuted"
   ],
   "note": "vectors 17, 21, 29, 30 have a processor error code the stubs do not expect"
  },
  {
   "property": "C50",
   "status": "proved",
   "theorems": [
    "C50_restores",
    "C50_disabled"
   ],
   "note": ""
  },
  {
   "property": "C51",
   "status": "partial",
   "theorems": [
    "C51_exact",
    "C51_inside_partial",
    "C51_refuted"
   ],
   "note": "exact characterisation; newlines can move the cursor below the last line"
  },
  {
   "property": "C52",
   "status": "partial",
   "theorems": [
    "C52_cells_partial",
    "C52_on_black_partial",
    "C52_background_refuted",
    "C52_last_cell_refuted",
    "C52_newline",
    "C52_tab_refuted"
   ],
   "note": "cell placement proved; background is not drawn, the last cell is erased, a tab is nine cells"
  },
  {
   "property": "C53",
   "status": "proved",
   "theorems": [
    "C53_translation",
    "C53_frame_buffer",
    "C53_low_memory",
    "C53_main_protect"
   ],
   "note": ""
  },
  {
   "property": "C54",
   "status": "proved",
   "theorems": [
    "C54_fat_entry"
   ],
   "note": "all 3072 entries of the table; table read as one little-endian number"
  },
  {
   "property": "C55",
   "status": "partial",
   "theorems": [
    "C55_kernel_partial",
    "C55_loader_partial",
    "C55_boot_kernel_partial",
    "C55_boot_loader_partial",
    "C55_chain_bounded",
    "C55_kernel_sound",
    "C55_loader_sound",
    "C55_marks_hang",
    "C55_marks_hang_loader",
    "C55_marks_refuted",
    "C55_loader_wrap",
    "C55_loader_long_refuted"
   ],
   "note": "end mark 0xFFF proved; for 0xFF8..0xFFE both loaders are shown never to finish; second stage limited to 64 KiB"
  },
  {
   "property": "C56",
   "status": "proved",
   "theorems": [
    "C56_chs"
   ],
   "note": ""
  },
  {
   "property": "C57",
   "status": "proved",
   "theorems": [
    "C57_search",
    "C57_frame",
    "C57_not_a_file_refuted"
   ],
   "note": "the refutation concerns attributes and the end-of-directory mark, which the statement does not mention"
  },
  {
   "property": "C58",
   "status": "proved",
   "theorems": [
    "C58_literals",
    "C58_literals_wrap",
    "C58_index_sequence",
    "C58_tuple_swap"
   ],
   "note": ""
  },
  {
   "property": "C59",
   "status": "partial",
   "theorems": [
    "C59_alignment_refuted",
    "C59_isr_alignment_partial"
   ],
   "note": "interrupt and system-call stubs call with the stack 8 bytes off; exception stubs are aligned"
  },
  {
   "property": "C60",
   "status": "partial",
   "theorems": [
    "C60_zones",
    "C60_bitmap_partial",
    "C60_records_partial",
    "C60_overlap_refuted",
    "C60_array_refuted"
   ],
   "note": "overlaps toggle bits back; the page array is too small when the map has holes"
  },
  {
   "property": "C61",
   "status": "proved",
   "theorems": [
    "C61_lifetimes",
    "C61_all_gone"
   ],
   "note": ""
  },
  {
   "property": "C62",
   "status": "proved",
   "theorems": [
    "C62_push_own_back",
    "C62_push_own_front"
   ],
   "note": "push_front where it is defined at all (see C13)"
  },
  {
   "property": "C63",
   "status": "partial",
   "theorems": [
    "C63_any_length_partial",
    "C63_constructed_partial",
    "C63_reset_refuted",
    "C63_assigned_refuted",
    "C63_copied_refuted",
    "C63_make_copy",
    "C63_assigned_any_length_refuted",
    "C63_copied_any_length_refuted",
    "C63_make_copy_any_length"
   ],
   "note": "holds for objects taken over by a constructor; false after reset(p), after assignment of the object and for its copies"
  },
  {
   "property": "C64",
   "status": "proved",
   "theorems": [
    "C64_no_leak"
   ],
   "note": ""
  },
  {
   "property": "C65",
   "status": "proved",
   "theorems": [
    "C65_values",
    "C65_programs"
   ],
   "note": "erasures may also not end (C25); comparison objects are stateless"
  },
  {
   "property": "C66",
   "status": "proved",
   "theorems": [
    "C66_copy"
   ],
   "note": ""
  },
  {
   "property": "C67",
   "status": "proved",
   "theorems": [
    "C67_reaches_main",
    "C67_no_long_mode"
   ],
   "note": "finding C67_stack_refuted: main is entered with a stack pointer misaligned by 8"
  },
  {
   "property": "C68",
   "status": "proved",
   "theorems": [
    "C68_agree",
    "C68_differ"
   ],
   "note": "C67_reaches_main shows that the code builds both tables"
  },
  {
   "property": "C69",
   "status": "partial",
   "theorems": [
    "C69_bits_partial",
    "C69_rbx_exact",
    "C69_rbx_refuted"
   ],
   "note": "control bits proved; rbx is overwritten"
  },
  {
   "property": "C70",
   "status": "partial",
   "theorems": [
    "C70_real_mode_partial",
    "C70_protected_refuted",
    "C70_svga_refuted"
   ],
   "note": "only in real mode: the failure paths outside it print nothing"
  },
  {
   "property": "C71",
   "status": "partial",
   "theorems": [
    "C71_stored_partial",
    "C71_kernel_sees_partial",
    "C71_svga",
    "C71_svga_refuted",
    "C71_carry_refuted"
   ],
   "note": "up to 1663 entries (20 as read by the kernel) and a zero continuation; a table ended by carry is taken for a failure; the video call overwrites entries from 25 on"
  },
  {
   "property": "C72",
   "status": "partial",
   "theorems": [
    "C72_image_partial",
    "C72_zero_refuted"
   ],
   "note": "the image is intact; .bss is not in the binary and nobody clears it"
  },
  {
   "property": "C73",
   "status": "partial",
   "theorems": [
    "C73_runs_partial",
    "C73_misaligned_refuted",
    "C73_priority_refuted"
   ],
   "note": "when the initialised data end at a multiple of 8 and no object has a priority"
  },
  {
   "property": "C74",
   "status": "partial",
   "theorems": [
    "C74_tables_partial",
    "C74_write_partial",
    "C74_write_refuted"
   ],
   "note": "tables exact; the write faults exactly if the cached translation is gone, no invlpg is executed"
  },
  {
   "property": "C75",
   "status": "partial",
   "theorems": [
    "C75_qualifiers_partial",
    "C75_references_partial",
    "C75_void_refuted",
    "C75_pointer_partial",
    "C75_extent",
    "C75_decay_partial",
    "C75_decay_refuted",
    "C75_decay_exact"
   ],
   "note": "references to void do not compile instead of leaving void; decay leaves noexcept functions as they are"
  },
  {
   "property": "C76",
   "status": "partial",
   "theorems": [
    "C76_categories_partial",
    "C76_categories_refuted",
    "C76_forgotten_exact",
    "C76_memfun_refuted"
   ],
   "note": "bool, signed char, wchar_t, char16_t, char32_t, long, unsigned long, nullptr_t and noexcept functions are in no category"
  },
  {
   "property": "C77",
   "status": "partial",
   "theorems": [
    "C77_or",
    "C77_not",
    "C77_and_partial",
    "C77_and_exact",
    "C77_and_refuted"
   ],
   "note": "conjunction of one or more conditions is their disjunction"
  },
  {
   "property": "C78",
   "status": "partial",
   "theorems": [
    "C78_accepts_partial",
    "C78_exact",
    "C78_convertible_refuted",
    "C78_deleter_refuted"
   ],
   "note": "exactly what a cast allows is accepted; every object pointer is said to convert to every other"
  },
  {
   "property": "C79",
   "status": "proved",
   "theorems": [
    "C79_forward",
    "C79_forward_refuses",
    "C79_move",
    "C79_nth_type"
   ],
   "note": ""
  },
  {
   "property": "C80",
   "status": "partial",
   "theorems": [
    "C80_fill",
    "C80_array_fill",
    "C80_fill_n",
    "C80_fill_backwards",
    "C80_back",
    "C80_min",
    "C80_max",
    "C80_tie_refuted",
    "C80_tie_exact",
    "C80_tuple"
   ],
   "note": "all but: on equivalent arguments min and max both return the second"
  },
  {
   "property": "C81",
   "status": "partial",
   "theorems": [
    "C81_float_partial",
    "C81_neighbour",
    "C81_nearest_refuted",
    "C81_ten_digits_refuted",
    "C81_default_precision_refuted",
    "C81_large_undefined"
   ],
   "note": "below 2^63 and up to nine digits the nearest decimal up to 2^-22 of a unit of the last digit; not the nearest next to a tie; wrong digits from ten on"
  },
  {
   "property": "C82",
   "status": "partial",
   "theorems": [
    "C82_any_length_partial",
    "C82_any_length_kept",
    "C82_any_length_reached",
    "C82_any_length_gone",
    "C82_any_length_exact",
    "C82_history_partial",
    "C82_kept",
    "C82_reached",
    "C82_nothing_left",
    "C82_circle_refuted",
    "C82_reset_undefined",
    "C82_members_refuted",
    "C82_exact"
   ],
   "note": "all histories, of any length, in which reset(p) and the converting assignment do not destroy the object their handle is a member of; those that do are undefined (C82_exact: exactly these); circles leak"
  },
  {
   "property": "C83",
   "status": "proved",
   "theorems": [
    "C83_typewriter",
    "C83_once",
    "C83_lines"
   ],
   "note": ""
  },
  {
   "property": "C84",
   "status": "partial",
   "theorems": [
    "C84_printf_partial",
    "C84_long_refuted",
    "C84_legible"
   ],
   "note": "all formats of C06 with fewer than 1024 characters of output; with more, the buffer is not terminated and what lies behind it is printed"
  },
  {
   "property": "C85",
   "status": "partial",
   "theorems": [
    "C85_fault_partial",
    "C85_name_refuted"
   ],
   "note": "all vectors but 17, 21, 29 and 30, whose frames are shifted (C49)"
  },
  {
   "property": "C86",
   "status": "proved",
   "theorems": [
    "C86_boot"
   ],
   "note": ""
  },
  {
   "property": "C87",
   "status": "partial",
   "theorems": [
    "C87_boots",
    "C87_map",
    "C87_map_refuted",
    "C87_report"
   ],
   "note": "the map main reads is the firmware's only if the last sector of the kernel file does not look like a memory range; exact condition proved"
  },
  {
   "property": "C88",
   "status": "partial",
   "theorems": [
    "C88_init_memory",
    "C88_tables_partial",
    "C88_mapped",
    "C88_drop",
    "C88_twice",
    "C88_twice_refuted",
    "C88_short_refuted",
    "C88_frame_refuted",
    "C88_gap_refuted"
   ],
   "note": "the page array holds all records only if no usable page has a number above the page count, and the tables are mapped only if they end within 10 MiB; both exact conditions proved and the failures exhibited"
  },
  {
   "property": "C89",
   "status": "partial",
   "theorems": [
    "C89_open",
    "C89_reset_refuted",
    "C89_copy",
    "C89_sectors",
    "C89_gate_needed",
    "C89_limit_needed"
   ],
   "note": "whether the gate opens depends on the lowest bit of port 92h; exactly when it is set the machine resets"
  },
  {
   "property": "C90",
   "status": "partial",
   "theorems": [
    "C90_out_byte_partial",
    "C90_others_refuted",
    "C90_comma"
   ],
   "note": "out_byte only; the other five templates are refused by the assembler (no comma between the operands; reads also have them in the wrong order, and in_word uses inb)"
  },
  {
   "property": "C91",
   "status": "partial",
   "theorems": [
    "C91_invoke",
    "C91_invoke_only",
    "C91_invoke_refuted",
    "C91_argument_refuted",
    "C91_holder",
    "C91_function",
    "C91_function_refuted",
    "C91_function_call",
    "C91_make_tuple",
    "C91_apply"
   ],
   "note": "exact; six kinds of calls the standard accepts are refused by invoke, function and make_tuple take only nameless arguments"
  },
  {
   "property": "C92",
   "status": "partial",
   "theorems": [
    "C92_normal",
    "C92_reverse",
    "C92_normal_read",
    "C92_normal_compare",
    "C92_reverse_read",
    "C92_deque_walk",
    "C92_deque_stays_partial",
    "C92_deque_renumbered",
    "C92_deque_stays_refuted"
   ],
   "note": "all but: adding a block at the front of a deque renumbers its elements and leaves the iterators behind"
  },
  {
   "property": "C93",
   "status": "partial",
   "theorems": [
    "C93_pair_partial",
    "C93_pair_refuted",
    "C93_tuple",
    "C93_tuple_any",
    "C93_plain",
    "C93_view",
    "C93_reverse",
    "C93_container",
    "C93_adapter",
    "C93_unique",
    "C93_unique_exact",
    "C93_handles",
    "C93_defer",
    "C93_atomic",
    "C93_atomic_value_partial",
    "C93_atomic_value_refuted",
    "C93_any_partial",
    "C93_any_refuted",
    "C93_rules"
   ],
   "note": "all classes; a pair cannot be assigned from a variable, an atomic takes no value by assignment, an any is not made from a constant"
  },
  {
   "property": "C94",
   "status": "partial",
   "theorems": [
    "C94_any_length",
    "C94_lock_any_length",
    "C94_use_count_any_length",
    "C94_orders_any_length",
    "C94_no_race",
    "C94_orders",
    "C94_use_count",
    "C94_lock",
    "C94_lock_same",
    "C94_lock_orders",
    "C94_alone_refuted",
    "C94_lock_refuted",
    "C94_stale_refuted"
   ],
   "note": "all schedules without lock(), and with lock() when nobody disturbs it and its load is fresh; no data race, with exact orders; false for other uses of lock(); a use_count() of 1 orders nothing"
  },
  {
   "property": "C95",
   "status": "partial",
   "theorems": [
    "C95_tuple_partial",
    "C95_tuple_variable",
    "C95_tuple_refuted",
    "C95_compiles_partial",
    "C95_compiles_refuted",
    "C95_deleted_by",
    "C95_once",
    "C95_pact",
    "C95_self",
    "C95_no_deleter_refuted",
    "C95_unfit"
   ],
   "note": "all programs; which deleter types compile is exact; that the usual ones all do is false"
  },
  {
   "property": "C96",
   "status": "partial",
   "theorems": [
    "C96_compiles",
    "C96_standard_partial",
    "C96_no_more",
    "C96_standard_refuted",
    "C96_key",
    "C96_key_refuted",
    "C96_equal_partial",
    "C96_equal_exact",
    "C96_equal_refuted",
    "C96_order",
    "C96_null",
    "C96_overflow_refuted"
   ],
   "note": "exact for all types and operands; shared_ptr, vector, list and deque iterators compare less than the standard ones, any and function are compared by presence, and 2^31 equal elements overflow an int"
  },
  {
   "property": "C97",
   "status": "proved",
   "theorems": [
    "C97_whole",
    "C97_text",
    "C97_order",
    "C97_unguarded_refuted"
   ],
   "note": "maskable interrupts on one processor; exceptions and the NMI never return; without the guards it would be false"
  },
  {
   "property": "C98",
   "status": "partial",
   "theorems": [
    "C98_data_partial",
    "C98_data_or_none",
    "C98_window_refuted"
   ],
   "note": "if IF is clear while handlers are registered; otherwise the handler may be called with a null pointer, because it is stored before its data"
  },
  {
   "property": "C99",
   "status": "partial",
   "theorems": [
    "C99_bounded_partial",
    "C99_enable_refuted",
    "C99_syscall_refuted",
    "C99_guard_refuted",
    "C99_shield_needed"
   ],
   "note": "for handlers that neither enable interrupts nor make system calls, with a bound that is reached; otherwise interrupts nest without bound, because the stub of system calls enables interrupts whatever its caller wants"
  },
  {
   "property": "C100",
   "status": "partial",
   "theorems": [
    "C100_exact_partial",
    "C100_refused",
    "C100_stays",
    "C100_stale",
    "C100_hang_refuted"
   ],
   "note": "all programs over one set or multiset and any number of iterators; an erasure may not end if some element was inserted elsewhere than at the end (C25), and the iterator of a refused insertion may designate the next element (C26); C100_refused follows programs that use it"
  },
  {
   "property": "C101",
   "status": "proved",
   "theorems": [
    "C101_screen",
    "C101_ends",
    "C101_flush",
    "C101_caught_refuted"
   ],
   "note": "the run of main with accessed and dirty bits and the screen it leaves; that the write is always caught is false, because main does not flush the translation, and true with a flush"
  },
  {
   "property": "C102",
   "status": "partial",
   "theorems": [
    "C102_access",
    "C102_exact",
    "C102_const",
    "C102_compiles_refuted",
    "C102_data_refuted"
   ],
   "note": "exact for all types and programs; constant queues and stacks cannot be looked at, -> on constant lists and data() of arrays do not compile, and data() of a constant vector lets its elements be written"
  },
  {
   "property": "C103",
   "status": "proved",
   "theorems": [
    "C103_gone",
    "C103_served"
   ],
   "note": "every schedule; handlers do not touch the table"
  },
  {
   "property": "C104",
   "status": "partial",
   "theorems": [
    "C104_screen_partial",
    "C104_paged",
    "C104_paged_refuted",
    "C104_entry_refuted"
   ],
   "note": "for a BIOS that enters with cs = 0 and writes teletype characters to the visible page, and a loader of at most 144 sectors; with a BIOS that takes the page from bh exactly one dot appears, and with cs = 7C0h the messages are read from the wrong place"
  },
  {
   "property": "C105",
   "status": "partial",
   "theorems": [
    "C105_lines_partial",
    "C105_map",
    "C105_total_refuted",
    "C105_map_refuted"
   ],
   "note": "every memory whose usable records add up to less than 2^53 bytes; above, the double loses bytes; which stored maps are shown as they are is exact (C105_map): zeroed memory behind the map and a seventeenth record are not noticed"
  },
  {
   "property": "C106",
   "status": "partial",
   "theorems": [
    "C106_related_partial",
    "C106_exact",
    "C106_errors",
    "C106_plain_refuted",
    "C106_missing_refuted",
    "C106_silent_refuted",
    "C106_errors_refuted",
    "C106_array",
    "C106_array_undefined",
    "C106_array_made",
    "C106_array_refuted",
    "C106_array_missing_refuted",
    "C106_assign",
    "C106_assign_errors",
    "C106_assign_refuted"
   ],
   "note": "between owners of classes; what compiles in all other cases is exact (C106_exact, C106_errors): qualifications of other types, several conversions of weak_ptr and unique_ptr are missing, raw pointers are taken over silently, some impossible conversions are errors inside the library, and an owner of an array of a base takes arrays of derived objects"
  }
 ]
}