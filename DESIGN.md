# Design of the formal model

Subject: the Eospp kernel, its C++ template library (`estl`) and its boot loader,
read as text from `/repo`. Nothing of it is built or run here.

## Conventions

* Every component has its own group of files under `rocq/theories`:
  `XModel.v` (executable Gallina definitions, each citing file and lines, no proofs),
  `XSpec.v` when the specification is more than a few lines (written without the model's helpers),
  `XProofs.v` (lemmas), and `PropertiesX.v` (only the property theorems, each closed by
  `exact`, with `Print Assumptions` and a non-vacuity `Example`).
* Outcomes: `Ok v`, `UB` (undefined behaviour: null or dangling dereference, out-of-bounds,
  indeterminate value, over-wide shift, signed overflow) and `Fuel` (loop bound exhausted).
  Every loop that is not structural carries explicit fuel; theorems either show that a
  stated amount of fuel suffices, or (for hangs) that no amount does.
* Machine integers are `N`/`Z` with explicit `mod 2^w` where the code can wrap.
* A property the code violates gets a `..._refuted` theorem with a concrete history as
  witness, plus a `..._partial` theorem with the strongest true part we could prove.
* How to read `seeded/LOG.jsonl`: a theorem counts as failed when its existing proof no longer checks, which includes proofs resting
  on a lemma that failed; it does not by itself show the statement false. Entries 417 to 757 (mechanical edits, with a line
  number) are coarser: the build stopped at the first lemma that failed, `lemmas_failed` names only that one, and
  `theorems_failed` lists the theorems whose proofs use it according to the `.glob` files of the present build, so later
  failures are not in it. Entries 452, 576 and 744, where no theorem uses that lemma, were run again through all files.
  For 606 and 643 the lemma was not recorded: there the list is every theorem of the files that were not built. From 758 on,
  three theorems using standard-library axioms could be listed without cause; `C105_lines_partial` and `C105_total_refuted`
  were taken off eight entries (758-760, 764, 766, 767, 815, 816) by reading which lemmas their proofs use, without repeating the runs.

## Plan per property

| id | what is modelled | how it is proved |
|----|------------------|------------------|
| C01, C02, C03 | byte memory as a partial map from 64-bit addresses, word loops of `memcpy`/`memmove`, byte loops of `strcpy`/`strlen` | loop invariants by induction on the trip count; pointwise statement about every address |
| C04 | `sprintf_num` digit loop, padding, clamping, copy out | digit-list lemma by strong induction; inverse reading function |
| C05-C08 | `vslprintf` as a parser over format bytes and an argument list, output cursor over a byte memory | invariant `buf <= last`, write-set containment; concrete refutations for missing NUL and trailing `%`; every format without NUL is parsed into directives and possibly a cut conversion (`PrintfCut.v`), which gives the exact conditions |
| C09-C12 | vectors as three indexes over heap blocks whose cells are raw / live / moved-from; allocator log | refinement to lists by invariant over histories, also for histories outside the preconditions (C09_exact: every one decided); construct/destroy balance; growth potential argument |
| C13-C18 | deque as an array of block pointers of 16 cells with `first`, `last`, `size`; queue and stack wrappers | refinement invariant; refutations for the front growth bug, indexing, empty range, memory growth; the number of blocks of a queue as a closed recurrence over its stretches between empty moments (C18_exact); every history decided, defined or not, by a second induction in DequeExact.v (C13_exact, C16_exact, C17_exact) |
| C13, C16, C18 (any length) | the same histories without a bound on their length (`DequeLongSpec.v`: `within` bounds the deques of one moment, `qwithin` the pushes to a queue between two of its empty moments) | the refinement of `DequeRun.v` step by step; the storage account of `DequeStorage.v` for any number of queues with copies, moves and swaps (`DequeLong.v`); examples over histories of every length |
| C19-C21 | node heap with next/prev pointers, sentinel per list | representation predicate (cyclic doubly linked segment) kept by each operation; wrong uses decided too (C19_exact: the ring is circular, missing nodes are undefined) |
| C22-C27 | node heap with colour/left/right/parent/key and a header node; all of rotate, rebalance, insert, search, erase, increment, decrement | heap representation predicate for trees in context; refinement to in-order sequences; refutations (balance, hang, duplicate iterator); `RbExact.v`: from the tree before, exactly which insertions break the rules and which erasures do not end |
| C65, C66 | any number of trees in one heap: copy, move, list construction, assignment by copy-and-swap, destruction | the single-tree invariant with a frame: each step leaves every other tree's cells alone; a copy is a run of appends, which keep the colour rules |
| C67, C68 | a small processor (control registers, segments, descriptors, translation through CR3) running loader.asm:385-485 and head.S:4-48 | symbolic execution block by block over an arbitrary state; the walk of C36/C37 over table contents in memory |
| C69, C70, C71 | arch.s:6-23 on registers; the bytes of the message routines under 16- and 32-bit decoding; the E820 and VBE calls of the loader | testbit by bits; decoding by computation over all address bytes; induction on the BIOS table |
| C72, C73, C74 | memory at the entry of main (C67); the linker's placement of the constructor table and the loop over it; main.cpp:35-41 with cached translations | corollary of C67; induction on the table and residues modulo 8; the walk of C53 with an arbitrary oracle for what the processor remembers |
| C75, C76, C77, C78, C79 | the types of the language as a tree; each trait as a function that tries the specialisations; forward and move on types and value categories | case analysis, induction on arrays and lists |
| C80 | algorithm.hpp, array.hpp and the tuple assignment over numbered cells | induction on the length of the range |
| C81 | conv_float over SpecFloat (IEEE binary64, round to nearest even) | the integer part is exact (Flocq), the two rounding errors are bounded over the reals, emission as in C08 |
| C82 | the handles of memory.hpp once more, now as variables or as members of managed objects; a destructor releases the members and so runs further destructors | the release of one group by induction on the fuel, with an entitlement count per group; the state after every command is compared with an independent graph (`GraphSpec.v`), in which an object goes when all its holders go |
| C83-C86 | `Vesa::ColorPrint`, the real font, `printf`, the fault handler behind the assembly stubs, the messages of main | the console is refined to a typewriter that knows which character was struck in which place; formatter (C06), string view and console are composed; legibility because the 94 glyphs and the blank are pairwise different; the frame of C49 and the scan of C42 supply the numbers |
| C87 | the stages of C55-C57, C71, C67, C42 and C86 in sequence, with arbitrary disturbance of scratch memory between them | frames of each stage composed; the buffer at 0x7E00 still holds the last kernel sector when the map is stored there, so the map main reads is computed for every such sector |
| C88 | init_memory from the reading of the map to the dropped page table entries, with the record sizes as parameters; the writes to the page tables go through the tables themselves | layout by arithmetic on the alignments, marking by induction over the page numbers, translation by comparing each walk with the boot walk; conditions for good ends exact (theorem C88_init_memory says when the call ends well and when it reads records never written) |
| C89 | the instructions of loader.asm:85-103 and 272-302 on a processor with hidden segment limits, A20 gate and port 92h | symbolic execution for all states; induction on the copy loop and on the sectors |
| C90 | the six assembler templates as text, operand substitution, a parser for the AT&T forms of in and out, devices as functions | by computation over the 257 ways to pass the port, then for all devices |
| C91 | InvokeModel.v: choice of the specialisations of invoke on the types of TraitsModel.v and whether the chosen body compiles; the pair of constructors X(const T&), X(T&&) after reference collapsing; function, make_tuple, apply on top. InvokeSpec.v: INVOKE of the standard as an inductive relation. Exact both ways: accepted by the standard and by invoke unless one of six cases (C91_invoke), accepted by invoke only if by the standard or one of two extensions (C91_invoke_only); exact conditions for function, make_tuple and apply. |
| C92 | IterModel.v: normal_iterator, reverse_iterator and deque_iterator as interpreters of the same eight operations; IterSpec.v: positions. Exact for normal and reverse iterators (including undefinedness); deque iterators on the histories of C13, by the invariant of DequeRun.v; stability by induction over the later changes. |
| C93 | the implicitly declared copy and move members of C++17, the ranking of candidates for one argument of the class's own type, every class of estl as the list of what it declares | by cases over the six expressions each element type supports; exact for all element types; the specification says what the standard classes support |
| C63 (assigned, copied) | SharedCopyModel.v: `*x = *y`, `T t(*y)` and make_shared<T>(*y) for objects with enable_shared_from_this, after every history of C63 | the simulation of SharedProofs.v, then the three members by computation on the related state; without a bound on the length of the history in `SharedCopyLong.v` |
| C94 | RaceModel.v: the events of the steps of ThreadsModel.v (which counter, which order, which accesses); RaceSpec.v: happens-before and data races of C++17 on them, and which values a relaxed load may see | invariant: every access is behind a holder of a handle or behind a released change of the counter that counts the holders; preserved by each step for all schedules. The orders needed are exact (closed sets of events show the races without them). RaceLockModel.v adds the events of lock(); the invariant also holds through lock() in schedules that do not disturb it (C29's condition), and fails otherwise |
| C95 | DeleterModel.v: the choice among the constructors of tuple for one argument per element, unique_ptr on top of it; unique_ptrs with deleter values, swap through the moves of the tuple inside | exact for all element types; refinement of a record of who owns what under which deleter (`DeleterSpec.v`) for all programs, then invariants on that record |
| C96 | CompareModel.v: the parameters of every comparison operator of estl, which operands bind to them, which operators their bodies use; values and answers, with the int index of the loops | induction over the types: exact table of what is taken (`CompareSpec.v`), answers equal up to the contents of any and function |
| C97 | IrqRaceModel/Spec/Proofs/Text: a processor with IF, IrqGuards and interrupt gates; printf is any sequence of instructions on the kernel and its own variables that amounts to the printf of C84; interrupts may come before any instruction | refinement: every schedule gives what some sequence of whole printf calls gives, and [runs] says which sequences; with C84 the text on the screen; without the guards refuted by a concrete schedule |
| C98 | IrqRaceModel/Spec/Table: RegisterIrqHandler and UnRegisterIrqHandler store by store | invariant over all schedules: own data if IF is clear during registration, own or null data otherwise; for every handler a schedule that passes null (C98_window_refuted) |
| C99 | NestModel/Spec/Proofs/Deep: the stubs of irqs.s and syscall.s instruction by instruction as far as they move rsp or change IF, interrupt delivery with alignment, the shadow of sti | invariant over all schedules (a chain of frames each within its floor; the handler of an interrupt is shut); the bound is reached in an example; nesting without bound by induction on the depth |
| C100 | RbIterModel.v runs programs over a tree and named iterators (node numbers) with the functions of RbModel.v; RbIterSpec.v gives the same programs a meaning over a list of elements with identities. | Refinement by induction over the program (RbIter.v): the list is the in-order walk, identities are node numbers, an iterator stays with its identity (`C100_exact_partial`, `C100_stays`); a stale one leads to a freed node (`C100_stale`). Partial: an erasure may not end (`C100_hang_refuted`, as C25).; RbRefusedSpec.v follows the iterator of a refused insertion, which designates the equal element or the next one (C100_refused) |
| C101 | LastModel.v: main.cpp:35-46 on a processor with accessed and dirty bits and cached translations; between two accesses any list of look-ups, evictions and writes of the rest of the kernel; the screen through ConsoleModel.v and the stub of vector 14. LastSpec.v says with a fold over these lists when the old translation survives. | The walk ignores the two bits (LastProofs.v, `walk_clean`); an invariant on tables and caches kept by every event (LastRun.v); the lines of C86 and C85 joined (LastScreen.v). `C101_caught_refuted`: without a flush the write can go through from every state; `C101_flush`: with one it cannot. |
| C102 | AccessModel.v: the members that lead to an element, of every container, iterator and pointer, as declared result and body in a small expression language, and the compiler's rules (overloads by const, binding and conversion of the result, members called by members). AccessSpec.v: the same members of the standard as a table of types, and the steps where estl differs | equal for every step on every type, by induction for every sequence of steps (C102_access, C102_exact); constness of what is reached as a function of the start and the steps (C102_const). |
| C103 | the machine of C98 (IrqRaceModel) | invariants over all schedules: where the main program is before, inside and after the call (IrqRaceGone), and an account of interrupts taken and handlers called (IrqRaceServed) |
| C104 | the four BIOS calls for the text screen, boot.asm and loader.asm as the sequence of calls they make (TextModel) | a printed string covers an interval of linear positions (TextProofs.puts_at); row by row composition; the exact screen for a BIOS that takes the page from bh; refuted for such a BIOS and for cs = 7C0h |
| C105 | memory::init as the calls of printf it makes, the sum as operations on doubles (MapInitModel), run through the model of vslprintf of C08 and C81 | whole numbers below 2^53 and their quotients by 2^20 are doubles, so the sum and both divisions are exact (Flocq); the value times 10^5 is a multiple of 2^-20, hence the tolerance of C81 vanishes and the printed decimal is a nearest one; records by reading back what the loader stored |
| C106 | the constructors of unique_ptr, shared_ptr and weak_ptr that can be called with an argument, and what becomes of their bodies (UpcastModel); owners of arrays and the type their elements are deleted as (UpcastArrayModel); assignments (UpcastAssignModel) | case analysis over kinds of arguments; __is_base_of and the conversion of pointers agree on classes up to access and qualifiers. Partial: the constraint is is_base_of, not convertibility of pointers; the exact set is C106_exact |
| C28-C32 | control blocks with use/weak counts, handles, sequential histories; atomic steps interleaved | counting invariants over histories and over interleavings; refutations for `lock`, a ledger of its exchanges over all schedules and safety whenever each lock counts once (`LockProofs.v`) |
| C28, C30, C63 (any length) | the same histories without a bound on their length (`SharedLongSpec.in_memory`: only the handles that exist at one time are bounded, by 2^64 - 9) | the simulation of `SharedProofs.v` step by step, each step needing room for the handles of that moment only (`SharedLong.v`); examples over histories of every length |
| C82 (any length) | the same for objects that hold handles (`GraphLongSpec.in_memory`: the handles that exist when a command starts and those it makes stay below 2^64 - 16) | the simulation of `GraphSteps.v` step by step (`GraphLong.v`); examples over programs of every length |
| C29, C32, C94 (any length) | the same schedules of threads without a bound on their length (`ThreadsLongSpec.countable`: the handles all threads have at one moment stay below 2^64 - 3) | the invariants of `ThreadsProofs.v`, `RaceProofs.v` and `RaceLockProofs.v` step by step, each step needing room for the handles of that moment only (`ThreadsLong.v`, `RaceLong.v`); examples over schedules of every length. For `C29_counted_any_length_partial` the count itself is bounded (`low_count`), since a lock() that loops adds to it without making a handle (`LockLong.v`) |
| C33-C41 | direct models of bitset, pair, string_view, reverse_iterator, any, function, defer, atomic | algebraic laws, invariants over histories; refutations where the code is wrong; every program over any and function decided (C38_exact, C39_exact); for defer a ledger of runs, live guards, copies and dismissals over all histories (`DeferProofs.v`) |
| C42 | 20-byte records in memory, scan loop | characterisation as longest valid prefix for every memory content; exactly which tables are reported as they are; refutations for stale bytes and for early stops |
| C43, C44, C60 | bitmap words, zones and page records; set-up from the memory map | refutation of `alloc_pages` plus the case where it is right, and its exact answer in every case as a search over stated positions with a stated displacement (`PageExact.v`); counting invariant over histories of `page_init`/`page_clean`, and for any flags the exact life of every page (`PageLife.v`: held, lent, references, bit, charges) with each zone's accounts the sums over its pages; parity argument for the set-up |
| C44 (any length) | the same histories of page_init and page_clean without a bound on their length (`PageLongSpec.v`: `accountable` and `referable` bound what is charged and referenced at one moment; without the reference flags nothing is bounded) | the invariants of `PageLife.v` and `PageProofs.v` step by step (`PageLong.v`); examples over histories of every length |
| C45-C50 | gate packing, registration tables, PIC command sequence, stack machine for the stubs, flag save/restore | bit-field round trip for all addresses; history invariants; symbolic execution of the stubs for all register values |
| C51, C52 | cursor and pixel writes | invariant on the cursor; refutation through newlines |
| C53 | four-level walk over the tables of `head.S` | arithmetic over all addresses |
| C54-C57 | 16-bit register arithmetic of the boot code over disk images | arithmetic proofs; induction on chains; refutation for end marks 0xFF8-0xFFE |
| C59 | stack pointer at the handler calls of the stubs | symbolic execution, arithmetic modulo 16 |
| C58 | shifts modulo 2^64, sequence generation, component swap | arithmetic and induction |

## Not modelled

* `kernel/include/core/physical_allocator.hpp` is not in the repository: names such as
  `PAGE_2M_SHIFT` and the page flags are taken by their evident meaning and stated where used.
* Overload resolution is used only to decide which overload a call selects (the type traits themselves are
  C75-C79); exceptions do not occur (no `throw` in the sources).
* Processor, BIOS and interrupt controller behaviour is modelled only as far as each property says.
* The memory model for concurrency is sequential consistency per atomic step, except in C94 (happens-before of C++17).

## Trusted base

The Coq 8.16.1 kernel; for each theorem what `Print Assumptions` prints (intended: nothing);
and the reading of the source recorded in the comments of the `*Model.v` files.

`Print Assumptions` is run under every property theorem; the build log shows
"Closed under the global context" for each of them except C81_float_partial, C105_lines_partial and C105_total_refuted, whose rounding
errors are bounded with the real numbers of the standard library.  They depend on the standard
library axioms `ClassicalDedekindReals.sig_not_dec`, `ClassicalDedekindReals.sig_forall_dec`,
`FunctionalExtensionality.functional_extensionality_dep` and `Classical_Prop.classic`, on nothing
else; Flocq is used for its lemmas, its primitive floats are not. `coqchk -o` also lists
`Coq.Reals.Rdefinitions.RbaseSymbolsImpl.*`, `RinvImpl.*` and `Coq.ssr.ssrunder.Under_rel.*`: items the
standard library seals behind module signatures, which coqchk reports as if they were axioms.

## Findings (defects of the code shown by `_refuted` theorems)

| theorem | where | what goes wrong |
|---------|-------|-----------------|
| C06_terminated_refuted | kernel string.cpp, vslprintf | no terminating NUL when the output fills the buffer |
| C07_no_overread_refuted | vslprintf | a format that ends inside a conversion is read past its NUL |
| C08_int64_min_refuted | sprintf_num | -2^63 is negated as a signed number |
| C31_default_null_refuted | memory.hpp:97 | a default-constructed unique_ptr holds an indeterminate pointer and its destructor reads it |
| C33_bitset_refuted, C33_bitset_high_half_refuted | bitset.hpp:43-45 | `1 << (pos % 64)` is an int shift: positions with pos % 64 >= 32 are undefined |
| C33_count_refuted | bitset.hpp:51-53 | count() returns the size |
| C34_pair_lex_refuted, C34_pair_swo_refuted | pair.hpp:50-53 | operator< ignores that the first components may be greater; two pairs can each be less than the other; exactly which pairs (C34_pair_lex_exact) and for which component types it is an order at all (C34_pair_swo_exact) |
| C35_lexicographic_refuted | string_view.hpp:78-94 | shorter strings come first whatever their contents |
| C36_substr_refuted | string_view.hpp:69-71 | size_ - pos underflows for pos > size_; C36_substr_exact gives the resulting view |
| C37_reverse_compare_refuted | iterator.hpp:298-370 | <, <=, >, >= of reverse iterators are mirrored |
| C38_source_unchanged_refuted | any.hpp:17-19 | building an any from a variable moves the variable's value away |
| C39_copy_empty_refuted | functional.hpp:117-118 | copying an empty function calls clone() on null |
| C39_destroys_callable_refuted | functional.hpp:71-76, 148-151 | delete through a base class without virtual destructor; the callable is never destroyed |
| C40_moved_refuted, C40_moved_source_refuted | defer.hpp:15-16 | the move constructor initialises exit_scope_ from itself and does not dismiss the source |
| C42_stale_refuted | loader.asm:333-342, e820.cpp:29-43 | no terminating record is stored; bytes left from the kernel sector buffer (same address 0x7E00) are read as entries |
| C42_early_stop_refuted, C42_long_refuted | e820.cpp:29-31 | a type-5 or empty entry hides all later ones; entries after the 20th are dropped |
| C46_null_refuted | interrupt.cpp:152-170 | unregistering the null handler on a free line reports success; `GateNullSpec.v` says what every history with null handlers does (C46_irq_exact, C46_syscall_exact) |
| C48_segments_refuted | store_ctx.s:3-11, irqs.s:39 | ds, es, gs keep the kernel selector on return (fs is never loaded: es is loaded twice) |
| C48_red_zone_refuted | Makefile flags | kernel code is compiled with a red zone, which an interrupt on the same stack overwrites |
| C49_shifted_refuted | isrs.s:42, 46, 54, 55 | stubs 17, 21, 29, 30 push a dummy code although the processor pushes one: all fields are shifted |
| C49_return_refuted | isrs.s:61 | add rsp,16 instead of 24: returning would jump to the error code (the handler never returns today) |
| C51_refuted | veas.cpp:381-385 | newline does not check the last line; the next character is written outside the frame buffer |
| C52_background_refuted | veas.cpp:356 | background pixels are stored into themselves; bg_color is ignored |
| C52_last_cell_refuted | veas.cpp:374-376 | the screen is cleared right after the last cell is drawn |
| C52_tab_refuted | veas.cpp:386-392 | a tab prints eight spaces and then the tab character: nine cells |
| C59_alignment_refuted | irqs.s, syscall.s | 168 bytes are on the stack at the call: misaligned by 8 for every interrupt and system call |
| C55_marks_refuted | boot.asm:139, loader.asm:305 | only 0xFFF ends a chain; 0xFF8..0xFFE are taken for clusters beyond the disk and the read is retried for ever |
| C55_loader_long_refuted | boot.asm:145 | bx wraps after 128 sectors: a longer second stage overwrites its own start |
| C57_not_a_file_refuted | boot.asm:67-94 | attributes and the end-of-directory mark are ignored: a volume label or stale entry is loaded |
| C43_aligned_undefined, C43_second_word_refuted | physical_allocator.cpp:333 | `<< (64 - k)` with k = 0 for every word after the first |
| C43_in_use_refuted | physical_allocator.cpp:331-336 | `page = j + k - 1` is right only when j % 64 = 1; otherwise another page, possibly in use, is handed out |
| C43_border_refuted | physical_allocator.cpp:326-344 | the run may cross the end of the zone |
| C44_leak_refuted | physical_allocator.cpp:65-75 | releasing a referenced or shared page never clears its bit |
| C44_zero_flags_refuted | physical_allocator.cpp:36-44 | flags 0 count the page but leave it unused |
| C44_boot_refuted | physical_allocator.cpp:212, 248-251 | page 0 is charged to zone 0 |
| C60_overlap_refuted | physical_allocator.cpp:206 | `^=` marks pages of overlapping entries used again |
| C60_array_refuted | physical_allocator.cpp:129-145, 192 | arrays sized by the amount of memory but indexed by physical address: writes outside them when the map has holes |
| C09_empty_range_refuted | vector.hpp:169-183 | erase(p, p) move-assigns every later element onto itself |
| C09_equal_int_refuted | vector.hpp:212 | `int` counter in operator== overflows at 2^31 equal elements |
| C10_empty_buffer_refuted | vector.hpp:70 | a zero-sized buffer (empty list, size 0) is allocated but never returned |
| C11_push_back_refuted | vector.hpp:75-83, 324-339 | push_back(v[i]) at full capacity reads the freed buffer |
| C11_insert_refuted | vector.hpp:109-136 | insert(p, v[j]) reads v[j] after the shift: wrong value for j >= p, use after free on reallocation |
| C13_front_growth, C13_front_refuted, C13_33_fronts_refuted | deque.hpp:281 | growing at the front copies block i to i + block_size_ instead of i + new_blocks: out of bounds with two or more blocks |
| C14_index_refuted, C14_pushed_front_refuted | deque.hpp:149-155 | operator[] counts from the first block, not from the first element |
| C15_empty_refuted, C16_copy_empty_refuted, C17_copy_empty_refuted | deque.hpp:206-220, 119-123 | end() is last_ + 1 also when empty: iterating or copying an empty deque, queue or stack reads a missing element |
| C18_storage_refuted | deque.hpp:291-313, 337-341 | blocks before the first element are reused only after the queue has been empty |
| C19_clear_calls_null, C19_strict_refuted | list.hpp:453-458, 60-65 | clear() and the destructor call cast_to_driver() on the null link of the last node |
| C20_two_or_more, C20_self_swap_refuted, C20_one | list.hpp:414-441 | l.swap(l) links the first node to itself: iteration never ends; with one element a later pop leaves begin() dangling |
| C29_dead_refuted, C29_uncounted_refuted, C29_leak_refuted | memory.hpp:348-358 | the compare-exchange loop of lock() goes round while the exchange succeeds: when another thread changes the count in between, lock() returns a pointer that is not counted (use after free) or counts it twice (leak) |
| C30_use_count_refuted | memory.hpp:705-707, 564-568 | a failed lock() returns a null pointer with a control block of its own and use_count 1 |
| C63_reset_refuted | memory.hpp:615-619 | reset(p) does not set M_weak_this_, so shared_from_this() returns null although the object is owned |
| C24_rules_refuted, C24_height_refuted | rb_tree.hpp:399-400 | the left-left case of the insertion rebalancing sets the colour of the parent twice and never that of the grandparent: inserting 3, 2, 1 breaks the colour rules, descending insertions make a list-like tree |
| C25_hang_refuted | rb_tree.hpp:482-543 | erase loops forever when the node to repair has no sibling, e.g. insert 3, 2, 1, 0, erase 3 |
| C26_iterator_refuted | rb_tree.hpp:731, 961 | insert of a key that is present returns an iterator to the next element unless the element has no right child |
| C67_stack_refuted | head.S:40-48 | main is entered by lretq with rsp = ...7E00: 8 off the alignment the calling convention promises (aligned SSE stores to the stack would fault); main.cpp:26 aligns rsp by hand before its first call |
| C69_rbx_refuted | arch.s:6-23 | EnableSse overwrites rbx, which belongs to its caller, with the answer of cpuid |
| C70_protected_refuted | loader.asm:487-491, 162-172 | without long mode Printf, assembled for 16 bits, is called in 32-bit mode: its bytes decode to other instructions, without int 10h and without ret |
| C70_svga_refuted | loader.asm:358-364, 493-497 | Set_Svga_Mode_Failed is 32-bit code entered in real mode: the message address is executed as instructions |
| C71_carry_refuted | loader.asm:334-342 | a BIOS that ends the table with carry, as the interface allows, is taken for a failure and booting stops |
| C71_svga_refuted | loader.asm:356-364 | the VBE information block at 0x8000 overwrites the map from entry 25 on |
| C45_absent_refuted | interrupt.hpp:117, interrupt.cpp:16-25 | the interrupt table is in .bss and not cleared: vectors 48, 49 and 60-255 keep whatever was in memory |
| C72_zero_refuted | Eospp.lds:28-34, Makefile:13, head.S | .bss is not part of Eospp.bin and neither loader nor kernel clears it |
| C73_misaligned_refuted | Eospp.lds:22-25 | start_ctors is set before the alignment of .init_array: if the data end off a multiple of 8 the loop of global_obj::Init calls padding and never meets end_ctors |
| C73_priority_refuted | Eospp.lds:23-24 | sections with a priority are placed after those without: the order is reversed |
| C74_write_refuted | main.cpp:36-40 | no invlpg after clearing the write bit: the write may still go through |
| C75_void_refuted | type_traits.hpp:332-356 | add_lvalue_reference<void> and add_rvalue_reference<void> (so declval<void>) do not compile; so `operator*` makes unique_ptr<void> with a deleter of its own impossible |
| C75_decay_refuted, C75_decay_exact | type_traits.hpp:26-99, 402-423 | is_function has no specialisation for noexcept functions: decay leaves the function type, so make_pair or any of such a function does not compile |
| C76_categories_refuted, C76_forgotten_exact | type_traits.hpp:524-549 | is_integral does not know bool, signed char, wchar_t, char16_t, char32_t, long and unsigned long (estd::uintptr_t); nullptr_t and noexcept functions are in no category |
| C76_memfun_refuted | type_traits.hpp:283-297 | pointers to noexcept member functions are called pointers to data members |
| C77_and_refuted, C77_and_exact | type_traits.hpp:458-462 | and_ selects like or_: conjunction of one or more conditions is their disjunction |
| C78_convertible_refuted, C78_deleter_refuted | type_traits.hpp:473-474, memory.hpp:12-18 | T(x) with one argument is a C-style cast: int* is said to convert to double*, and every default_deleter converts to every other, against the comment |
| C80_tie_refuted | algorithm.hpp:6-13 | on equivalent arguments min and max both return the second, and only then (C80_tie_exact) |
| C81_nearest_refuted | string.cpp:311 | next to a tie the sum with 0.5 rounds up: %.1f of the double below 0.05 prints 0.1 |
| C81_ten_digits_refuted | string.cpp:306-311 | the scale is a 32-bit number, 10^10 wraps: %.10f of 0.5 prints 0.0705032704 |
| C81_default_precision_refuted | string.cpp:303-327 | %f without a precision prints no fraction and truncates |
| C81_large_undefined | string.cpp:302 | doubles of 2^63 and more, infinities and NaN are converted to int64_t, which is undefined |
| C82_reset_undefined, C82_exact, C82_members_refuted | memory.hpp:593-599, 615-619 | reset(p) on a handle that is a member of an object kept only by the group being released writes `ptr_` after the object (and so the handle) was destroyed: `x->self.reset(new T)` with `x` held only by `self`. reset() and assignment of an empty handle on the same member are fine |
| C82_circle_refuted | memory.hpp:326-807 | two objects holding each other are never destroyed (inherent in counting) |
| C84_long_refuted | veas.cpp:323-331, string.cpp | `vslprintf` does not terminate a full buffer, so after an output of 1024 characters or more `printf` prints whatever lies behind `buf` up to the next NUL, and the end of the text is lost |
| C85_name_refuted | interrupt.cpp:202-234 | the exceptions 20, 21, 28, 29 and 30, defined by the architecture, are reported as "Reserved" |
| C87_map_refuted | loader.asm:250-313, 328-342, e820.cpp:17-44 | the memory map is stored over the buffer with the last sector of the kernel file and is not terminated; if the file ends in bytes that look like ranges, main counts them (two ranges become twenty) |
| C88_twice_refuted | physical_allocator.cpp:107-109 | address and length are added to the row instead of stored: a second call doubles every range |
| C88_short_refuted | physical_allocator.cpp:143-145, 190-193 | the page array is sized by the amount of memory but indexed by page number; the hole below 1 MiB alone makes it one record short when memory ends on a 2 MiB boundary, and with 1026 MiB that record is the first zone |
| C88_frame_refuted | physical_allocator.cpp:141-156, head.S:68-82 | only 10 MiB are mapped linearly; with 512 GiB the page records run into the mapping of the frame buffer |
| C88_gap_refuted | physical_allocator.cpp:147, 246-251 | the memset of the page records is commented out; a kernel page that is not in a usable range has a record never written |
| C89_reset_refuted | loader.asm:86-88 | the byte read from port 92h is written back with bit 0 as it was; on a machine where that bit reads 1 the write resets it |
| C90_others_refuted | io.hpp:7, 22, 31, 37, 46 | no comma between the operands: in_byte, in_word, out_word, in_dword and out_dword do not assemble when used; with the comma the reads still have their operands in the wrong order |
| C91 | functional.hpp:36-43: invoke tests Fn without removing its reference, so a pointer to member function that has a name is called like a function and does not compile (C91_invoke_refuted); pointers to data members and to noexcept member functions never work. |
| C91 | functional.hpp:39: the second test is made on the first argument instead of the callee; a nameless pointer to a data member as first argument of an ordinary function does not compile (C91_argument_refuted). |
| C91 | functional.hpp:81-85, 113-115: function_helper<Fn&> declares the same constructor twice, so a function cannot be made from (or assigned) a lambda or function that has a name (C91_function_refuted), and never from a pointer to member. tuple.hpp:41-43, 182-185: the same for make_tuple with any named argument (C91_make_tuple). |
| C92 | deque.hpp:265-289: a deque iterator is an index counted from the first block; when a block is added at the front every element moves up by 16 and every iterator reads raw memory, or, from the last place of the block, the new element (C92_deque_renumbered, C92_deque_stays_refuted). |
| C63_assigned_refuted | memory.hpp:785-807 | enable_shared_from_this has no assignment of its own, so `*x = *y` copies M_weak_this_: x->shared_from_this() then returns y's object |
| C63_copied_refuted | memory.hpp:785-807 | the same for copies: a local copy of an owned object hands out the original |
| C93_pair_refuted | pair.hpp:12-35 | pair declares a move constructor and no copy assignment, which is therefore deleted: `p = q` with q a variable does not compile |
| C93_atomic_value_refuted | atomic.hpp:131-139, 220-266 | atomic<T> does not inherit operator=(T): `a = 5` does not compile (atomic<bool> has its own) |
| C93_any_refuted | any.hpp:10-12 | an any cannot be made from a constant: the constructor names the struct `decay<T>` |
| C94_lock_refuted | memory.hpp:348-358 | a copy made while another thread is inside lock(): the handle returned is not counted and its use races with the destruction, whatever the orders |
| C94_stale_refuted | memory.hpp:349 | lock() that nobody disturbs may load an older value; its exchange then fails at once and the handle returned is not counted |
| C94_alone_refuted | memory.hpp:333-335 | use_count() is a relaxed load: 1 does not mean that the former owners' uses happened before, and an older value can be seen |
| C95_tuple_refuted | tuple.hpp:95, 125-129 | is_constructible has its arguments the wrong way round: one variable among the arguments makes tuple copy them all, so `tuple<int, unique_ptr<T>>(i, move(p))` does not compile |
| C95_compiles_refuted | memory.hpp:70-71, 102-114, tuple.hpp:41-43 | a unique_ptr whose deleter can only be moved cannot be moved or built with one; deleters that are references never compile; one whose deleter is a pointer to a function can be built without a function |
| C95_no_deleter_refuted | memory.hpp:66-68, 99-100 | unique_ptr<T, void(*)(T*)>(p) compiles and its destructor calls an indeterminate pointer |
| C96_standard_refuted | memory.hpp:750-778, vector.hpp:208-218, list.hpp:269, deque.hpp:87-93 | two shared_ptr compare only if both are non-const variables, so pairs, vectors and lists of them do not compare at all; vector has no != and no order, so a vector of vectors has no ==; a constant list or iterator of a list or deque has no == |
| C96_key_refuted | rb_tree.hpp:100-109, 917-922, memory.hpp:760-763 | a set of pairs cannot be filled (the key is the first member but is returned as a pair); nor a set of shared_ptr |
| C96_equal_refuted | any.hpp:51-53, functional.hpp:144-146 | the conversion to bool is not explicit: any and function compare, by presence only, so vectors of different contents are equal |
| C96_overflow_refuted | vector.hpp:212, list.hpp:276 | the index is an int: 2^31 equal elements overflow it |
| C98 | RegisterIrqHandler (interrupt.cpp:134) stores the handler before its data and does not keep interrupts away: an interrupt on that line between the two stores calls the handler with a null pointer. (UnRegisterIrqHandler clears the handler first and is safe.) | C98_window_refuted |
| C99 | syscall.s:7 executes sti on entry whatever the caller's IF: a system call made in an interrupt handler, or inside an IrqGuard, lets interrupts in, and interrupts then nest without bound on the one stack. The sti of irqs.s:42 before iretq is needless and harmless only because the processor shields the next instruction | C99_syscall_refuted, C99_guard_refuted, C99_shield_needed |
| C19_alien_refuted | list.hpp:305-325 | insert and erase do not notice an iterator of another list: the element enters or leaves that list while the size of this one changes |
| C101_caught_refuted | main.cpp:36-40 | as C74, now with accessed and dirty bits and from every state: the line "*p = 2" is printed although "page read only" stands above it |
| C102_compiles_refuted | queue.hpp:52-54, stack.hpp:44-46, list.hpp:192-194, array.hpp:45-47, rb_tree.hpp:214-220, 264-270, deque.hpp:76-85 | front() and top() of a constant queue and stack, -> on an iterator of a constant list and data() of a constant array do not compile; a constant iterator of a set cannot be dereferenced, one of a deque not be moved; only vectors have reverse iterators; queue has no back() |
| C102_data_refuted | vector.hpp:224-226, array.hpp:45-51 | data() of a constant vector gives a pointer through which the elements can be written; the two data() of array have their const exchanged |
| C104_paged_refuted, C104_paged | boot.asm:126-131 | the teletype function is called with the load offset of the sector in bh, where the interface expects the page: on a BIOS that takes it from there only the first dot is visible, the others go to pages 2, 4, 6, ... |
| C104_entry_refuted | boot.asm:19-22 | ds is taken from cs although the addresses of the messages count from segment 0 (org 7C00h): on a BIOS that enters with 7C0h:0 instead of the usual 0:7C00h the messages are garbage |
| C105_total_refuted | physical_allocator.cpp:8, 23-24 | the total is added up in a double: from 2^53 bytes on single bytes are lost |
| C105_map_refuted | physical_allocator.cpp:14-17 | the loop ends only at a type above 4, unlike init_memory, which also stops at type or length 0: zeroed memory behind the map is printed as records; the seventeenth record of a map is never seen |
| C106_plain_refuted | memory.hpp:109-111, 578-586, 693-695 | the constraint is is_base_of_v, false for anything but classes: shared_ptr<int> does not convert to shared_ptr<const int> |
| C106_missing_refuted | memory.hpp:97-100, 653-655, 681-695 | no implicit unique_ptr from nullptr, no shared_ptr from a unique_ptr or (publicly) a weak_ptr, no weak_ptr to a base from a weak_ptr |
| C106_silent_refuted, C106_assign_refuted | memory.hpp:564-576, 588-591, 689-691 | the constructors from raw pointers are not explicit: a function taking a shared_ptr takes over any pointer passed, and weak_ptr<X> w(new X) deletes the object at once |
| C106_errors_refuted | memory.hpp:109-111, 570-586, 693-695 | is_base_of_v ignores const and access: these conversions are chosen and then fail inside the library |
| C106_array_refuted, C106_array_missing_refuted | memory.hpp:43-47, 188-189 | unique_ptr<Base[]> p(new Derived[n]) compiles and deletes the array as one of Base, which is undefined; unique_ptr<int[]> does not convert to unique_ptr<const int[]>, nor nullptr implicitly |

Observed while reading, outside the model: `get<I>(tuple&&)` (tuple.hpp:175-180) casts the
tuple to tuple_value of a reference, a class it is not derived from, and does not compile when used; `any(ptr)` selects the constructor at 26-28 and stores a
default-constructed pointee; `function_helper<Fn&>` declares the same constructor twice, so a
function cannot be built from an lvalue callable; the macro `defer_scope` pastes
`__COUNTER__` unexpanded, so two guards in one scope collide; unique_ptr has no
constructor from nullptr_t, so `unique_ptr<T> p = nullptr` does not compile; `unique_ptr<int>` does not convert to
`unique_ptr<const int>` (is_base_of is false for both, memory.hpp:109-111); default_deleter<T[]> accepts arrays of derived classes
(memory.hpp:33-47 asks is_convertible, C78).

## Simplifications by component

* any / function / unique_ptr (`OwnModel.v`): objects are names, allocation never fails, stateless
  deleters; the value of a holder is opaque. Slot 0 stands for library temporaries.
* defer: actions are identifiers appended to a log; they do not touch guards.
* atomic: one indivisible step per call, one location; memory orders are dropped.
* bitset: the word count does not overflow. pair: comparison functions of components are parameters.
* string_view: one character per address. reverse_iterator: base iterators are indexes.
* memory map: the BIOS stores records exactly as listed, `di` does not wrap, the carry-flag end
  convention is not modelled.
* interrupt tables (`GateModel.v`): packed layout and bit-field order of the target ABI; the 8259
  model covers ICW1-4, the mask word and non-specific EOI in fully nested mode; port delays and
  spurious interrupts are left out. Handlers are addresses. The messages printed by the
  registration functions are left out. The registration functions are private and have no caller.
* stubs (`StubModel.v`): straight-line instruction lists, unbounded stack addresses, 64-bit words,
  no x87/SSE state; the C++ handler is an arbitrary state change constrained by `sysv_handler`.
* IrqGuard: statements are skip, sequence, guard, sti, cli; the whole rflags word is saved.
* console: frame buffer of 1440*900 ints, font as a parameter, unbounded cursor integers.
* paging: 4-level walk without TLB, NX, PCID; reserved bits are not checked.
* boot code (`FatModel.v`): the disk is a total function from offsets to bytes; the BIOS serves every
  request inside the geometry and within one track and fails every other; transient errors are not
  modelled (the same request would be repeated). The stack, the printing of dots and segment
  reloads are left out; buffers are linear addresses (no buffer crosses 64 KiB). [Fuel] stands for
  the endless retry loop.
* physical pages (`PageModel.v`): the header is missing, so flag values are parameters and counters
  64-bit unsigned; addresses are in units of 2 MiB; the bitmap is a total function (reads behind
  it are not flagged), `alloc_pages` takes 1..64 pages; `number` is not negative. The printing,
  the placement of the tables and CR3 handling of `init_memory` are left out.
* objects (`ObjModel.v`): a buffer is a list of cells (raw, alive with a value, moved-from); pointers are
  buffer and index, comparison across buffers only for equality. Element types copy and move
  without side effects; whether a self-move keeps the value is a parameter. Allocation of 2^63 bytes or
  more is undefined, otherwise it succeeds.
* vector (`VectorModel.v`): several named vectors over one memory; arguments are values except in the
  aliasing theorems, which call the operation on a pointer into the buffer.
* deque, queue, stack (`DequeModel.v`): element blocks and block-pointer arrays live in one object
  memory; element types are not trivially destructible (for trivial ones clear() skips the
  destructor calls, which have no effect); iterators are absolute indexes as in the code. The
  specification `srun` carries the place in storage because the code's defects depend on it;
  `lrun`, `qspecs`, `kspecs` are plain sequences.
* list (`ListModel.v`): nodes are the sentinel of a list object or the k-th node created; addresses are
  not reused, so every access to a freed node is undefined in the model. The downcast of the
  sentinel to a node type is a change of type only; `list_size_` is unbounded. `lax` says whether a
  member call on a null pointer that never uses `this` is tolerated. In the specification elements
  carry an identity (their creation number) so that iterators can be followed.
* shared_ptr, weak_ptr (`SharedModel.v`, one thread): an object and the control block it is handed to share
  a number; numbers are not reused. Managed objects hold no handles except M_weak_this_. Default deleter;
  converting members act as the plain ones up to the identity upcast. Comparison operators are not modelled.
* shared_ptr under threads (`ThreadsModel.v`): one object and its block; sequentially consistent atomics
  (the code asks for relaxed loads and an acq_rel exchange; C94 treats the orders);
  each atomic access, the deletion of the object and of the block are single steps. compare_exchange_weak
  fails only if the values differ. An operation of the schedule is any that the thread's handles allow.
* rb_tree, set, multiset (`RbModel.v`, `RbRun.v`): addresses are given out in order and never reused; the value is
  its own key (set and multiset only, map is not modelled); compare_ is a pure function; count_ is unbounded.
  `make_pair(it++, it)` binds references, so both read the iterator after or during the increment: the model takes the
  returned pair as (old, new). Loops take fuel; the theorems hold for every fuel above the number of insertions, and a
  loop that does not end is `Fuel` for every fuel. Copy, move, assignment and swap of
  several trees are in `RbMany.v`; comparison objects are stateless there, so swapping them does nothing.
* **Long mode** (`SwitchModel.v`). The `i`-th instruction of a block has the block's address plus `i`; all blocks lie inside one
  page, so translation of the fetch is checked for each. Flags other than IF are not kept; the two comparisons of
  `support_long_mode` are taken from its text. A20 is on, no interrupt arrives after cli, descriptor checks are those
  the used selectors need (present, type, privilege, L/D); anything else is `Unmodelled`, which the theorems exclude.
* **Boot pieces** (`StageModel.v`). The decoder knows the opcodes of the two routines and gives up on any other;
  the BIOS is a function from the continuation to carry, 20 bytes and the next continuation.
* **Start-up** (`StartModel.v`). Input sections are placed one after the other with their alignment, as ld does inside one output
  section; constructors do not write to their own table; cached translations are per 2 MiB page and the
  processor may forget any of them at any access; accessed and dirty bits are not kept.
* **Type traits** (`TraitsModel.v`). Ill-formed types (references to references inside other types, arrays of functions) are not excluded from
  the tree; the theorems that need it say so. is_convertible is modelled for one argument and for arithmetic types and object
  pointers; the spec of implicit conversions has no multi-level qualification conversions, which makes C78_accepts_partial weaker, not the refutations.
* **Algorithms** (`AlgoModel.v`). One cell per element. A tuple of references does not compile (the two one-argument constructors of
  tuple_value coincide), so make_tuple of a variable does not either; only tuples of values are modelled. array::data() const does not compile either.
* **Ownership graphs** (`GraphModel.v`). Sequential; every managed object has a fixed list of member handles, each shared or weak, given when it is made;
  members are destroyed in reverse order. User code inside destructors other than the members' own is not modelled. `survives` is the exact condition
  for reset(p) and the converting assignment (C82_exact).
- Console (C83-C86): the picture before printing is arbitrary, `Vesa::Init` does not clear it. The static buffer and the
  strings of the exception table lie at arbitrary addresses (`buf`, `ex`), apart from each other (`ready`, `string_at`). The
  value `*(&PDE + 2)` is a parameter, as the processor sets bits in it. `fault_handler` ends before its endless loop; the
  registers it receives are the words of the frame the stub leaves (`fault_of`). The lines printed by main after the write to
  the protected page are not part of C86 (whether they are reached is C74).
- Whole way (C87): `load_all` runs the models of the stages on one memory; `noise` is an arbitrary change of the scratch memory
  (below 0x7E00, the loader's variables, BIOS and video memory) between them, standing for messages, stack and BIOS calls. The
  files are any whose bytes, once in memory, hold the tables of `loader_in` and `kernel_in` (what the assembler and linker
  produce is not modelled). Real mode, segments and registers at the switch are those of C67.
- init_memory as a whole (C88): sizeof(struct Page) and sizeof(struct Zone) are parameters and Get_gdt (line 253) is taken to
  return cr3, since the header is missing. The tables are kept as functions and lists, not as bytes at their addresses; that the
  accesses stay apart is the separate statement C88_tables_partial. `int` loop counters are not wrapped. Printing is left out.
- High memory in real mode (C89): no instruction fetch and no flags but IF; loading a null or a code selector counts as a fault. Code
  between the copies (BIOS, message routine, FAT) is any function that keeps real mode, the loader's segments, the gate and the limit
  of fs; a BIOS that reloads fs in protected mode would break that. C55 models the same copy on plain memory.
- Port functions (C90): the assembler knows the six mnemonics, the accumulators, dx and immediates below 256, single spaces only.
- invoke, function, make_tuple (C91): only whether code compiles is modelled, and arguments are taken to fit the parameters; classes have no bases, no conversions and no volatile call operators; the use of t.size() of a parameter as a constant in apply (functional.hpp:67) is left to the compiler.
- Iterators (C92): pointers are positions in one array; that operator+ and operator== of deque_iterator are not const, and that deque_iterator has no iterator_category (so no reverse_iterator over it), is not modelled.
- Special members (C93): an element type is known by which of the six expressions T(a), b = a compile for a variable, constant or temporary; it is constructible from its own type only. volatile and explicit conversions are left out.
- Copied owners (C63): the member M_weak_this_ is the only member of the object that is a handle, as in SharedModel.v.
- Memory model (C94): in C94_lock the loads of lock() and its exchange that fails see the last value (an older one is C94_stale_refuted), and the exchange does not fail without reason. Counters change by read-modify-writes only, so an interleaving fixes their modification orders, and each consistent execution is a schedule with stale loads; handing a handle to another thread is taken to synchronise. Two uses of the object by two threads are the users' affair.
- Deleters (C95): arguments of a tuple have the element's own type; a deleter's call does not change the deleter or the unique_ptrs; the converting constructor (memory.hpp:109-111) and a default-constructed unique_ptr (C31) are not part of the programs.
- Comparisons (C96): both operands have the same type up to const, or one is nullptr; built-in pointer comparison is by address; a string_view is its characters.
- Interrupt races (IrqRaceModel): one processor, maskable interrupts only; the controllers' priorities are left out, so more
  interleavings are covered than there are; the instruction after sti, which the processor still shields, is not shielded. The
  compiler is taken to keep the two stores of the tuple assignment in source order; in the other order unregistering would be
  the unsafe one. What RegisterIrqHandler prints is left out in C98.
* Nest (C99): only instructions that change rsp or IF are kept; handlers and programs are straight-line lists of them (a branch is the list
  of what it executes); the stack variables of _irq_handler count as the handler's. Raised interrupts are lost while IF is clear instead
  of pending, which allows more schedules, not fewer. Stack addresses are unbounded integers.
- Vectors (C09_exact): iterators passed to a member lie between begin() and end(); forming others is undefined by the language and not modelled. erase(end()) is outside the contract but defined here: it takes the last element away (vector.hpp:158-168).
- Lists (C19_exact): an iterator is not used with a list while it stands in another (C19_alien_refuted shows what happens), a list is not constructed from or swapped with itself (C20). Node addresses are not reused, so a stale iterator is always noticed.
- Set iterators (C100): node addresses are not reused, so a stale iterator is always noticed; ++ of end(), -- of begin() and ranges the wrong way round are outside the contract and not decided; one tree at a time (several in C65).
- C101: the rest of the kernel appears as byte writes outside the tables and the page at 4 MiB, and as look-ups; printf's memory (ConsoleModel.v) and
  the physical memory of the walk are separate components. A faulting access sets no accessed bit. A write through a cached translation without the dirty bit
  is looked up again. Error codes: supervisor mode, no reserved bits, no protection keys.
- Access (C102): expressions are known by type, const and lvalue; elements are objects (no references, no const element types), private members and
  comparisons inside the bodies are not checked (C96); increment and decrement of tree iterators are reduced to one assignment; a multiset is a set.
- Text screen (C104): 80 columns, 25 rows, page 0 visible; the blink and colour of an attribute are not interpreted; characters 7, 8, 10 and 13 move the cursor. Whether the loader, the kernel, the map and the video information are found is an input (C86, C87 and C89 are about that). Disk errors (no message) are not modelled here.
- memory::init (C105): the function is not called in the kernel and the header with its record is missing; five unsigned ints without padding are assumed, the layout the loader writes. Physical memory shows at 0xffff800000000000 + a. The drawing of the printed text is C84.
- Conversions of smart pointers (C106): default deleters, pointees that are neither arrays nor void; the constructors with a deleter are not covered. Which of several constructors overload resolution takes is written down per kind of argument (the copy and move constructors and the one from T* before the templates). A class hierarchy is any pair of relations, bases and accessible unambiguous bases.
