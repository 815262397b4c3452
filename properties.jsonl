{"id": "C01", "title": "memmove is correct under every overlap", "statement": "memmove(dest, src, n) leaves in [dest, dest+n) exactly the n bytes that were in [src, src+n) before the call, for every relative position and overlap of the two ranges; it changes no byte outside [dest, dest+n), reads no byte outside [src, src+n), and returns dest+n.", "quantifier": "all memories, all dest/src addresses whose ranges are mapped and do not wrap, all n", "why_tests_cant": "The word-at-a-time loops behave differently for each overlap distance modulo 8 and each n modulo 8; tests sample a handful of the unboundedly many (distance, n) pairs.", "anchors": ["kernel/src/util/string.cpp: memmove, memcpy"]}
{"id": "C02", "title": "memcpy copies disjoint ranges exactly and touches nothing else", "statement": "For ranges that do not overlap, memcpy(dest, src, n) makes [dest, dest+n) equal to [src, src+n), leaves every other byte unchanged and returns dest+n; a null pointer or n = 0 changes nothing. It is also correct for overlapping ranges with dest below src (which memmove relies on); it is not promised for dest above src.", "quantifier": "all memories, addresses and lengths", "why_tests_cant": "The 8-byte main loop plus byte tail has to be right for every length and content, and the frame (nothing else changes) is a statement about all other addresses.", "anchors": ["kernel/src/util/string.cpp: memcpy"]}
{"id": "C03", "title": "strlen and strcpy follow the first terminator", "statement": "strlen(s) is the offset of the first NUL byte; strcpy(dst, src) copies exactly strlen(src)+1 bytes, terminator included, and changes nothing else, when the two strings do not overlap.", "quantifier": "all memories holding a NUL at some distance, all non-overlapping positions", "why_tests_cant": "Unbounded string lengths and arbitrary surrounding memory.", "anchors": ["kernel/src/util/string.cpp: strcpy, strlen", "estl/algorithm.hpp: cstrlen"]}
{"id": "C04", "title": "integer rendering is exact", "statement": "Rendering an unsigned 64-bit number in decimal or hexadecimal emits the canonical digits of that number (no leading zeros), preceded by exactly max(0, width - digits) pad characters, provided the buffer has room; reading the digits back gives the number. The internal digit buffer never overflows.", "quantifier": "all 2^64 values, all widths, both pad characters, decimal / lower / upper hex", "why_tests_cant": "2^64 values and arbitrary widths cannot be enumerated.", "anchors": ["kernel/src/util/string.cpp: sprintf_num"]}
{"id": "C05", "title": "formatted output never leaves the caller's buffer", "statement": "Whatever the format string and the arguments, the printf family writes only inside [buf, last) and returns a pointer in [buf, last].", "quantifier": "all format strings, all argument lists, all buffer sizes including zero", "why_tests_cant": "An overflow depends on the interaction of width, padding, precision, sign and remaining room, over all format strings.", "anchors": ["kernel/src/util/string.cpp: vslprintf, sprintf_num, snprintf"]}
{"id": "C06", "title": "formatted output is always NUL terminated", "statement": "After snprintf / printf formatting into a non-empty buffer, the buffer contains a terminating NUL, so that passing it on as a C string never reads beyond the buffer.", "quantifier": "all format strings, arguments and non-empty buffers", "why_tests_cant": "The failing sizes are exactly those where the output meets the end of the buffer.", "anchors": ["kernel/src/util/string.cpp: vslprintf, snprintf", "kernel/src/io/veas.cpp: printf"]}
{"id": "C07", "title": "the formatter never reads past the end of the format string", "statement": "Formatting stops at the terminating NUL of the format string; no byte after it is read.", "quantifier": "all NUL-terminated format strings, all arguments", "why_tests_cant": "Quantifies over every format string, including ill-formed ones.", "anchors": ["kernel/src/util/string.cpp: vslprintf"]}
{"id": "C08", "title": "integer conversions print the argument's value", "statement": "%d, %l, %u..., %x..., with any width, print the signed or unsigned value of the corresponding argument in the requested base, consume exactly one argument, and ordinary characters are copied verbatim in order.", "quantifier": "all argument values, all surrounding text that fits the buffer", "why_tests_cant": "All 2^32 / 2^64 argument values, with all surrounding formats.", "anchors": ["kernel/src/util/string.cpp: vslprintf"]}
{"id": "C09", "title": "vector behaves as a sequence", "statement": "Any sequence of push_back, push_front, insert, emplace, erase (one or range), pop_back, pop_front, resize, reserve, clear, copy, move, swap and assignment, called within their preconditions and with arguments that do not refer into the vector itself, has the effect of the same operations on a mathematical sequence: size, every element, front/back and equality agree, and no undefined behaviour occurs.", "quantifier": "all histories of operations, all element values, all capacities", "why_tests_cant": "Reallocation interacts with every operation; histories are unbounded.", "anchors": ["estl/vector.hpp: class vector", "estl/allocator.hpp"]}
{"id": "C10", "title": "vector destroys every element once and frees every buffer once", "statement": "Over the life of any set of vectors, each element constructed is destroyed exactly once, no raw slot is destroyed or assigned, and each buffer obtained from the allocator is returned exactly once.", "quantifier": "all histories of operations ending with the destruction of the vectors", "why_tests_cant": "Leaks and double destruction show only as a balance over whole histories.", "anchors": ["estl/vector.hpp: class vector, ensure_capacity, ~vector", "estl/allocator.hpp: construct, destory"]}
{"id": "C11", "title": "vector accepts its own elements as arguments", "statement": "v.push_back(v[i]) and v.insert(pos, v[i]) behave as if the element had been copied before the call, whether or not the vector reallocates.", "quantifier": "all vectors, all positions i and pos, all capacities", "why_tests_cant": "Fails only at particular size/capacity relations, typically invisible with small values.", "anchors": ["estl/vector.hpp: push_back, insert, ensure_capacity"]}
{"id": "C12", "title": "vector growth is amortised constant", "statement": "n push_backs on an empty vector move elements at most 2n times in total, and the capacity never exceeds twice the largest size reached or requested.", "quantifier": "all n, all histories", "why_tests_cant": "A complexity bound over all n.", "anchors": ["estl/vector.hpp: ensure_capacity, reserve"]}
{"id": "C13", "title": "deque behaves as a double-ended sequence", "statement": "Any history of push_front, push_back, pop_front, pop_back and clear has the effect of the same operations on a mathematical sequence; front, back, size and iteration agree and no memory outside the deque's own arrays is touched.", "quantifier": "all histories of operations", "why_tests_cant": "The block map is reallocated only after many operations, at history-dependent points.", "anchors": ["estl/deque.hpp: class deque"]}
{"id": "C14", "title": "deque indexing is positional", "statement": "d[i] is the i-th element counted from the front, for every i below size().", "quantifier": "all deques reachable by any history, all i", "why_tests_cant": "Depends on the history that produced the deque, not only on its contents.", "anchors": ["estl/deque.hpp: operator[]"]}
{"id": "C15", "title": "an empty deque is an empty range", "statement": "When size() is 0, begin() equals end(), and copying or iterating the deque touches no element.", "quantifier": "all histories that leave the deque empty", "why_tests_cant": "Histories; reading through the bad iterator may happen to survive in a test.", "anchors": ["estl/deque.hpp: begin, end, deque(const deque&)"]}
{"id": "C16", "title": "queue is first-in first-out", "statement": "For any interleaving of pushes and pops (pop only when non-empty) the queue returns elements exactly in the order pushed, front/back/size agree, and no invalid memory is touched.", "quantifier": "all histories", "why_tests_cant": "Block boundaries and re-centring on empty depend on the whole history.", "anchors": ["estl/queue.hpp: class queue", "estl/deque.hpp"]}
{"id": "C17", "title": "stack is last-in first-out", "statement": "For any interleaving of pushes and pops (pop only when non-empty) the stack returns the most recently pushed remaining element, size agrees, and no invalid memory is touched.", "quantifier": "all histories", "why_tests_cant": "Block boundaries and re-centring on empty depend on the whole history.", "anchors": ["estl/stack.hpp: class stack", "estl/deque.hpp"]}
{"id": "C18", "title": "queue memory is proportional to its contents", "statement": "The storage held by a queue is bounded by a function of the largest number of elements it ever held at once.", "quantifier": "all histories of pushes and pops", "why_tests_cant": "A resource bound over unbounded histories.", "anchors": ["estl/queue.hpp", "estl/deque.hpp: ensure_capacity_back, decrease_element"]}
{"id": "C19", "title": "list behaves as a sequence and keeps its links consistent", "statement": "Any history of push/emplace front/back, insert, erase (one or range), pop front/back, clear, swap of two different lists, copy and assignment has the effect of the same operations on mathematical sequences; forward and backward traversals visit exactly the elements in order and terminate; no freed node is touched and no node leaks.", "quantifier": "all histories over several lists", "why_tests_cant": "Pointer structures over unbounded histories; backward links are rarely tested.", "anchors": ["estl/list.hpp: class list, list_node_base"]}
{"id": "C20", "title": "list self-swap is harmless", "statement": "l.swap(l) leaves the list unchanged.", "quantifier": "all lists", "why_tests_cant": "An aliasing case that ordinary tests of swap with two lists do not reach.", "anchors": ["estl/list.hpp: swap"]}
{"id": "C21", "title": "list iterators stay valid", "statement": "Inserting or erasing an element leaves every iterator to another element valid and pointing at the same value.", "quantifier": "all lists, all positions", "why_tests_cant": "Quantifies over every other element after every operation.", "anchors": ["estl/list.hpp: insert, erase"]}
{"id": "C22", "title": "ordered tree iterates in sorted order with exactly what was inserted", "statement": "After any sequence of insertions, iterating a set yields exactly the distinct inserted keys in increasing order, and iterating a multiset yields exactly the inserted elements, sorted and with equal elements in insertion order; insertion never touches invalid memory and always terminates.", "quantifier": "all insertion sequences, all strict weak orders on keys", "why_tests_cant": "The shape of the tree depends on the whole sequence; rebalancing paths are numerous.", "anchors": ["estl/rb_tree.hpp: emplace_unique, emplace_multi, insert_node_at, insert_rebalance, rotate_left, rotate_right", "estl/set.hpp"]}
{"id": "C23", "title": "ordered tree searches are exact", "statement": "find, count, lower_bound, upper_bound and equal_range return what a scan of the sorted element sequence would return.", "quantifier": "all trees reachable by insertions, all search keys", "why_tests_cant": "All shapes and all keys.", "anchors": ["estl/rb_tree.hpp: find, lower_bound, upper_bound, equal_range, count_multi, count_unique"]}
{"id": "C24", "title": "ordered tree stays balanced", "statement": "After any sequence of insertions the tree satisfies the red-black colour and black-height rules, hence its height is logarithmic in its size.", "quantifier": "all insertion sequences", "why_tests_cant": "A bound over all sizes; a degenerate tree still returns right answers in tests.", "anchors": ["estl/rb_tree.hpp: insert_rebalance"]}
{"id": "C25", "title": "erase terminates and removes exactly one element", "statement": "Erasing an element of any tree terminates, removes exactly that element, and leaves every other element in place and order.", "quantifier": "all trees reachable by insertions and erasures, all elements", "why_tests_cant": "Rebalancing after erase depends on the whole history; a hang occurs only in some shapes.", "anchors": ["estl/rb_tree.hpp: erase, erase_rebalance"]}
{"id": "C26", "title": "inserting a duplicate into a set reports the existing element", "statement": "Inserting a key already in a set leaves the set unchanged, returns false, and the returned iterator designates the element equal to the key.", "quantifier": "all sets, all keys present", "why_tests_cant": "Which element the iterator designates depends on the tree shape.", "anchors": ["estl/rb_tree.hpp: insert_unique_pos, emplace_unique"]}
{"id": "C27", "title": "tree iterators step through neighbours", "statement": "Incrementing an iterator moves to the next element in order (end after the last), decrementing undoes incrementing, and decrementing end gives the last element.", "quantifier": "all trees reachable by insertions, all elements", "why_tests_cant": "All shapes; the header sentinel is distinguished by colour only.", "anchors": ["estl/rb_tree.hpp: increment, decrement"]}
{"id": "C28", "title": "shared ownership destroys exactly once", "statement": "Over any sequential history of constructing, copying, moving, assigning, resetting, swapping and destroying shared_ptr and weak_ptr handles (including lock on live and expired ones), each managed object is destroyed exactly once, exactly when its last shared_ptr goes, each control block is freed exactly once, when its last handle of either kind goes, and use_count is the number of shared_ptr sharing the object.", "quantifier": "all histories over any number of handles", "why_tests_cant": "Unbounded histories; the balance shows only over the whole history.", "anchors": ["estl/memory.hpp: shared_ptr, weak_ptr, shared_count, weak_count, count_base"]}
{"id": "C29", "title": "weak_ptr::lock is safe under concurrency", "statement": "If lock() returns a non-null pointer then the object is alive and stays alive while that pointer exists, whatever other threads do with their own handles.", "quantifier": "all interleavings of lock with release and copy in other threads", "why_tests_cant": "Only some interleavings fail; tests cannot force them.", "anchors": ["estl/memory.hpp: count_base::lock, weak_ptr::lock"]}
{"id": "C30", "title": "lock on an expired weak_ptr yields an empty shared_ptr", "statement": "When the object is gone, lock() returns a null shared_ptr whose use_count is 0.", "quantifier": "all expired weak_ptr", "why_tests_cant": "Observable only through use_count after expiry.", "anchors": ["estl/memory.hpp: weak_ptr::lock, shared_ptr(T*)"]}
{"id": "C31", "title": "unique_ptr owns its object exclusively", "statement": "Over any history of construction, move, reset, release, swap and destruction of unique_ptr handles, each owned object is deleted exactly once unless released, and a default-constructed unique_ptr is null.", "quantifier": "all histories over any number of handles", "why_tests_cant": "Unbounded histories; an indeterminate pointer often happens to be null in tests.", "anchors": ["estl/memory.hpp: unique_ptr, unique_ptr_impl", "estl/tuple.hpp: tuple_value"]}
{"id": "C32", "title": "concurrent copying and dropping of shared_ptr is safe", "statement": "When several threads concurrently copy and destroy their own shared_ptr and weak_ptr handles to one object, then in every interleaving the object is destroyed exactly once, after the last shared handle is dropped, and the control block is freed exactly once, after every handle is gone; no thread touches either afterwards.", "quantifier": "all interleavings of any number of threads", "why_tests_cant": "Exponentially many schedules.", "anchors": ["estl/memory.hpp: count_base, shared_count::release, weak_count::release", "estl/atomic.hpp"]}
{"id": "C33", "title": "bitset positions are independent", "statement": "set(i) and clear(i) affect position i only, reset(flag) all positions, test(i) returns the last value given to position i, and count() is the number of set positions.", "quantifier": "all sizes, all positions, all histories", "why_tests_cant": "All pairs of positions and histories; aliased positions are invisible when tests treat all positions alike.", "anchors": ["estl/bitset.hpp: set, clear, reset, test, count, bit_mask"]}
{"id": "C34", "title": "pair ordering is lexicographic", "statement": "operator< on pairs is the lexicographic order, hence a strict weak order usable as key order of a set, and <=, >, >= are consistent with it.", "quantifier": "all pairs over all ordered component types", "why_tests_cant": "An order law over all triples.", "anchors": ["estl/pair.hpp: operator<"]}
{"id": "C35", "title": "string_view comparison is a total order consistent with equality", "statement": "compare is antisymmetric, transitive and total, returns 0 exactly for equal contents, and orders strings lexicographically.", "quantifier": "all byte strings", "why_tests_cant": "Order laws over all triples of strings.", "anchors": ["estl/string_view.hpp: compare, operator==, operator<"]}
{"id": "C36", "title": "string_view::substr stays inside the viewed range", "statement": "substr(pos, len) denotes the characters from pos, at most len of them, and never extends beyond the original view.", "quantifier": "all views, all pos and len", "why_tests_cant": "Unsigned wrap-around occurs only for particular arguments.", "anchors": ["estl/string_view.hpp: substr"]}
{"id": "C37", "title": "reverse iteration mirrors forward iteration", "statement": "Iterating from reverse_iterator(end()) to reverse_iterator(begin()) visits the elements in exactly the reverse order, and reverse iterators compare in the order of that traversal (r1 < r2 iff r2 is reachable from r1 by increments).", "quantifier": "all sequences, all pairs of positions", "why_tests_cant": "All lengths and positions.", "anchors": ["estl/iterator.hpp: reverse_iterator, operator<"]}
{"id": "C38", "title": "any holds an independent copy", "statement": "Constructing an any from a value leaves the source unchanged, copying an any copies the value, and later changes to one do not affect another; any_cast succeeds exactly for the stored type.", "quantifier": "all histories over several any objects", "why_tests_cant": "Aliasing over unbounded histories.", "anchors": ["estl/any.hpp"]}
{"id": "C39", "title": "function objects are freely copyable", "statement": "Copying, moving, swapping and assigning function objects, empty or not, is well defined, and calling a copy runs the same callable.", "quantifier": "all histories over several function objects", "why_tests_cant": "Histories including empty objects.", "anchors": ["estl/functional.hpp: class function"]}
{"id": "C40", "title": "a deferred action runs exactly once", "statement": "The action given to a defer object runs exactly once, when its scope ends, however the object is moved, unless dismissed.", "quantifier": "all histories of construct, move, dismiss, destroy", "why_tests_cant": "Histories of moves.", "anchors": ["estl/defer.hpp"]}
{"id": "C41", "title": "atomic read-modify-write loses no update", "statement": "Under every interleaving of threads performing fetch_add/fetch_sub/exchange/compare-exchange, the final value is the initial value plus all additions modulo 2^w, each fetch_add returns a distinct intermediate value, and a compare-exchange reports success exactly when it wrote.", "quantifier": "all interleavings of any number of threads, all widths", "why_tests_cant": "Exponentially many schedules.", "anchors": ["estl/atomic.hpp"]}
{"id": "C42", "title": "the memory map is read faithfully", "statement": "After initialisation the memory manager reports exactly the entries the firmware stored, in order, and the available memory is the sum of the usable ones.", "quantifier": "all firmware tables and all bytes following them", "why_tests_cant": "All tables, including terminators, reserved types and stale bytes behind the table.", "anchors": ["kernel/src/core/e820.cpp: Manager::Init", "kernel/include/core/e820.hpp", "bootloader/loader.asm"]}
{"id": "C43", "title": "page allocation returns free pages and marks them used", "statement": "alloc_pages(n) returns n consecutive pages that were free in the bitmap and inside one zone, marks exactly those as used and changes no other bit; if it fails, nothing changes.", "quantifier": "all bitmaps, all zone layouts, all n", "why_tests_cant": "All bitmap contents and offsets.", "anchors": ["kernel/src/core/physical_allocator.cpp: alloc_pages"]}
{"id": "C44", "title": "page accounting is exact", "statement": "Initialising and cleaning pages keeps, per zone, the in-use and free counts, the reference totals and the bitmap consistent with the set of pages in use.", "quantifier": "all histories of page_init and page_clean with any attribute flags", "why_tests_cant": "Unbounded histories over all flag combinations.", "anchors": ["kernel/src/core/physical_allocator.cpp: page_init, page_clean"]}
{"id": "C45", "title": "IDT gates encode the handler addresses", "statement": "After interrupt initialisation, decoding each interrupt gate as the processor does yields exactly the address of the stub for that vector, kernel code selector, type, DPL and present bit; vectors without a stub are not present.", "quantifier": "all 64-bit handler addresses, all 256 vectors", "why_tests_cant": "All 2^64 handler addresses per vector.", "anchors": ["kernel/src/core/interrupt.cpp: setGate, installISRS, installIRQS, installSyscalls", "kernel/include/core/interrupt.hpp"]}
{"id": "C46", "title": "interrupt handler registration is exclusive", "statement": "Registering a handler succeeds exactly when the line is valid and free; unregistering succeeds exactly for the registered handler; dispatch calls the currently registered handler with the data given at registration, and nothing if there is none.", "quantifier": "all histories of register, unregister and dispatch on IRQ lines and syscalls", "why_tests_cant": "Unbounded histories.", "anchors": ["kernel/src/core/interrupt.cpp: RegisterIrqHandler, UnRegisterIrqHandler, RegisterSysCall, UnRegisterSyscall, TriggerIrq, TriggerSyscall"]}
{"id": "C47", "title": "a hardware interrupt reaches its own handler and is acknowledged", "statement": "After initialisation, an interrupt on line n (0..15) enters through vector 32+n, runs the handler registered for n with line number n, and end-of-interrupt is sent to the master controller, and to the slave exactly when n >= 8.", "quantifier": "all lines, all registered handlers", "why_tests_cant": "Crosses controller programming, IDT contents, assembler stub and dispatcher.", "anchors": ["kernel/src/core/interrupt.cpp: RemapIrqs, _irq_handler", "kernel/src/core/irqs.s"]}
{"id": "C48", "title": "interrupts preserve the interrupted context", "statement": "Entry and exit through an IRQ or system-call stub restore every general register, the stack pointer, rip and rflags of the interrupted code (for system calls: with exactly the changes the handler made in its register record), and the handler sees every register in the right field of its record.", "quantifier": "all register contents and stack contents", "why_tests_cant": "All register values; an off-by-one in the frame is invisible for symmetric values.", "anchors": ["kernel/src/core/store_ctx.s", "kernel/src/core/irqs.s", "kernel/src/core/syscall.s", "kernel/include/core/interrupt.hpp: syscall_regs"]}
{"id": "C49", "title": "exception frames are decoded correctly for every vector", "statement": "For every exception vector 0..31 the fault handler sees the processor's error code (0 if the processor pushes none) and the true rip, cs, rflags, rsp and ss of the fault.", "quantifier": "all 32 vectors, all frame contents", "why_tests_cant": "Needs a processor fault of every vector.", "anchors": ["kernel/src/core/isrs.s", "kernel/include/core/interrupt.hpp: fault_regs"]}
{"id": "C50", "title": "IrqGuard restores the interrupt flag", "statement": "Inside any nesting of IrqGuard scopes interrupts are disabled, and when a scope ends the interrupt flag has the value it had when the scope began.", "quantifier": "all nestings and initial flag values", "why_tests_cant": "All nestings.", "anchors": ["kernel/include/core/interrupt.hpp: IrqGuard"]}
{"id": "C51", "title": "screen output stays inside the frame buffer", "statement": "Printing any text writes only pixels of the 1440x900 frame buffer.", "quantifier": "all texts, all cursor positions reachable", "why_tests_cant": "Needs particular long texts with newlines; out-of-range writes are silent.", "anchors": ["kernel/src/io/veas.cpp: PutChar, ColorPrint", "kernel/include/io/vesa.hpp"]}
{"id": "C52", "title": "printing places glyphs cell by cell", "statement": "Printing text without control characters draws each character's glyph in the next 8x16 cell, left to right and top to bottom, without changing other cells; newline moves to the start of the next line; a tab advances eight cells.", "quantifier": "all texts and cursor positions", "why_tests_cant": "All texts.", "anchors": ["kernel/src/io/veas.cpp: PutChar, ColorPrint"]}
{"id": "C53", "title": "the boot page tables map what the kernel uses", "statement": "With the page tables of head.S, every virtual address in the low 10 MiB and in the high half at 0xffff800000000000 translates to the same physical offset, and the whole frame buffer at 0xffff800000a00000 translates linearly to 0xe0000000; addresses outside the tables fault.", "quantifier": "all 2^64 virtual addresses", "why_tests_cant": "All addresses.", "anchors": ["kernel/head.S", "kernel/main.cpp", "kernel/include/io/vesa.hpp"]}
{"id": "C54", "title": "FAT12 entries are decoded correctly", "statement": "The boot code reads for every cluster number exactly the 12-bit entry stored for it in the FAT, including entries that straddle a sector boundary.", "quantifier": "all FAT contents, all cluster numbers of the disk", "why_tests_cant": "All table contents and clusters; straddling occurs for few clusters.", "anchors": ["bootloader/fat12.inc", "bootloader/boot.asm", "bootloader/loader.asm: Get_FAT_Entry"]}
{"id": "C55", "title": "the kernel file is loaded completely and in order", "statement": "Following the cluster chain loads exactly the sectors of the file, in chain order, at consecutive addresses, and stops at any valid end-of-chain mark.", "quantifier": "all well-formed FAT chains, all end-of-chain values 0xFF8..0xFFF", "why_tests_cant": "All chains and end marks.", "anchors": ["bootloader/boot.asm", "bootloader/loader.asm"]}
{"id": "C56", "title": "logical sectors map to the right cylinder, head and sector", "statement": "Reading logical sector L of the 1.44 MB disk asks the BIOS for the cylinder, head and sector with that linear number, within the disk geometry.", "quantifier": "all sectors 0..2879", "why_tests_cant": "Finite but crosses 8/16-bit register arithmetic.", "anchors": ["bootloader/boot.asm: Read_One_Sector", "bootloader/loader.asm"]}
{"id": "C57", "title": "the root directory search finds the file", "statement": "The search reports the first cluster of the first root-directory entry whose 11-byte name matches, and reports absence exactly when there is none.", "quantifier": "all directory contents", "why_tests_cant": "All directory contents and positions.", "anchors": ["bootloader/boot.asm: Search_In_Root_Dir_Begin", "bootloader/loader.asm"]}
{"id": "C58", "title": "size literals and integer sequences mean what they say", "statement": "n_KB, n_MB and n_GB are n times 2^10, 2^20 and 2^30 whenever that fits in 64 bits; make_index_sequence<N> is 0..N-1 and tuple swap exchanges every component.", "quantifier": "all n and N, all tuples", "why_tests_cant": "All n.", "anchors": ["kernel/include/core/memory_literals.hpp", "estl/utility.hpp", "estl/tuple.hpp"]}
{"id": "C59", "title": "interrupt handlers are called with an aligned stack", "statement": "At every call of a C++ handler from an entry stub the stack pointer is a multiple of 16, as the System V convention (and SSE code the compiler may emit) requires.", "quantifier": "all interrupted states, all vectors", "why_tests_cant": "Misalignment faults only with particular compiler output.", "anchors": ["kernel/src/core/irqs.s", "kernel/src/core/syscall.s", "kernel/src/core/isrs.s", "kernel/src/core/store_ctx.s"]}
{"id": "C60", "title": "zones, page records and bitmap agree with the memory map after set-up", "statement": "Building the zones from the memory map yields one zone per usable entry that holds a whole 2 MiB page, clears the bitmap bit of exactly the pages inside usable memory, and writes page records only inside the array reserved for them.", "quantifier": "all memory maps", "why_tests_cant": "All maps, including overlapping entries and holes.", "anchors": ["kernel/src/core/physical_allocator.cpp:160-208", "kernel/src/core/physical_allocator.cpp:127-145"]}
{"id": "C61", "title": "deque object lifetimes are balanced", "statement": "Over any history of deque operations, objects are constructed only in raw storage and destroyed exactly once, blocks and block arrays are released exactly once and only when empty, and nothing is left when all deques are gone.", "quantifier": "all histories over any number of deques", "why_tests_cant": "Leaks and double destructions are invisible to value-based tests and depend on the history.", "anchors": ["estl/deque.hpp: ~deque, clear, ensure_capacity_front, ensure_capacity_back"]}
{"id": "C62", "title": "a deque element may be pushed onto its own deque", "statement": "push_back and push_front of a reference to an element of the same deque add a copy of that element, also when storage grows in the call.", "quantifier": "all reachable deques, all elements", "why_tests_cant": "Only growth at a block boundary exposes dangling references.", "anchors": ["estl/deque.hpp: emplace_back, emplace_front"]}
{"id": "C63", "title": "shared_from_this joins the owners", "statement": "While a shared_ptr owns an object of a class derived from enable_shared_from_this, shared_from_this() returns a shared_ptr to that object that shares its ownership, however the shared_ptr came to own it.", "quantifier": "all histories of handles", "why_tests_cant": "Depends on which member function took the object over and on the whole history of its handles.", "anchors": ["estl/memory.hpp: enable_shared_from_this, construct_shared_from_this, shared_ptr::reset"]}
{"id": "C64", "title": "tree nodes are freed exactly once", "statement": "Over any sequence of insertions, erasures and clears that ends, the live nodes are exactly the header and one node per element, and the destructor frees all of them without touching a freed node.", "quantifier": "all programs over a set or multiset, all strict weak orders", "why_tests_cant": "A leaked or doubly freed node changes no returned value.", "anchors": ["estl/rb_tree.hpp: erase, clear, erase_since, ~rb_tree, emplace_unique, destory_node"]}
{"id": "C65", "title": "sets and multisets are independent values", "statement": "Default, copy, move and initializer-list construction, copy, move and list assignment, swap and destruction of any number of sets or multisets give each of them exactly the elements its history says; a change to one never shows in another, and the live nodes are exactly one header per living tree and one node per element.", "quantifier": "all programs over any number of sets, all strict weak orders", "why_tests_cant": "Shared or leaked nodes after copy, move and swap show up only after later changes of the other tree.", "anchors": ["estl/rb_tree.hpp: constructors, operator=, swap", "estl/set.hpp"]}
{"id": "C66", "title": "a copied tree is balanced", "statement": "Copying a set or multiset gives a tree with the same elements in the same order that obeys the colour rules, whatever the shape and colours of the source.", "quantifier": "all trees, balanced or not", "why_tests_cant": "Needs sources whose colours are broken, and sizes beyond any test.", "anchors": ["estl/rb_tree.hpp: rb_tree(const rb_tree&)"]}
{"id": "C67", "title": "The processor reaches main in the state the kernel expects", "statement": "From any real-mode state with the loader and the kernel in memory, on a processor with long mode, the code from the last BIOS call to main runs without a fault, every block of instructions being fetched from where it lies under the translation then in force; main is entered in 64-bit mode with the kernel's page tables, descriptor tables, stack and segments, interrupts off, no other control bit changed and no memory written but the temporary tables and the top of the stack. Without long mode it stops with paging off.", "quantifier": "all initial processor states, memory contents, cpuid answers and load layouts", "why_tests_cant": "Needs every initial register and memory content; an emulator starts from one.", "anchors": ["bootloader/loader.asm:385-485", "kernel/head.S:4-48"]}
{"id": "C68", "title": "The loader's and the kernel's page tables agree where execution crosses", "statement": "For every address of the low 10 MiB, in the identity half and in the kernel half, the loader's temporary tables and the kernel's tables give the same physical address and rights, whatever else is in memory.", "quantifier": "all virtual addresses in the window and all contents of the rest of memory", "why_tests_cant": "A boot only touches the few pages on its path.", "anchors": ["bootloader/loader.asm:414-438", "kernel/head.S:54-82"]}
{"id": "C69", "title": "Enabling SSE changes exactly the SSE bits and keeps the caller's registers", "statement": "EnableSse clears CR0.EM and sets CR0.MP, CR4.OSFXSR and CR4.OSXMMEXCPT exactly when cpuid reports SSE, changes no other control bit, and keeps the registers that belong to its caller.", "quantifier": "all cpuid answers and register contents", "why_tests_cant": "Depends on the processor and on what the compiler keeps in rbx at the call.", "anchors": ["kernel/src/core/arch.s:6-23"]}
{"id": "C70", "title": "Boot failures are reported on screen", "statement": "Whatever the failure that stops the loader, its message is printed with the BIOS and the loader then halts.", "quantifier": "all message addresses and failure paths", "why_tests_cant": "The failing processors and video modes are not at hand in an emulator.", "anchors": ["bootloader/loader.asm:162-172", "bootloader/loader.asm:487-497"]}
{"id": "C71", "title": "The loader stores the whole memory map", "statement": "For every BIOS memory map, ended by a zero continuation or by carry, every entry is stored in order at 0x7E00, nothing else is changed, and the kernel reads exactly that map.", "quantifier": "all BIOS tables, memory contents and video answers", "why_tests_cant": "Each machine has one table; emulators end it in one of the two ways.", "anchors": ["bootloader/loader.asm:328-364", "kernel/src/core/e820.cpp"]}
{"id": "C72", "title": "Static storage is as the language promises when main starts", "statement": "When main is entered, every byte of the kernel image is as loaded, and every static object without an initialiser is zero.", "quantifier": "all memory contents before booting", "why_tests_cant": "Emulators start with zeroed memory; real machines do not.", "anchors": ["kernel/Eospp.lds:28-34", "kernel/Makefile:12-13", "kernel/head.S:4-48"]}
{"id": "C73", "title": "Global constructors run exactly once, in order", "statement": "global_obj::Init calls the constructor of every global object exactly once, objects with a priority first, the others in link order, for every size and alignment of the initialised data in front of the table.", "quantifier": "all sets of constructors and sizes of the data section", "why_tests_cant": "A build has one data section size; the failure depends on it modulo 8.", "anchors": ["kernel/Eospp.lds:17-27", "kernel/include/core/global_obj.hpp:8-11"]}
{"id": "C74", "title": "A page made read-only cannot be written", "statement": "After main clears the write bit of the page at 4 MiB, the tables forbid writes to exactly that page, and the write that follows faults.", "quantifier": "all states of memory and of the processor's cached translations", "why_tests_cant": "Whether the processor still has the old translation cached is not under the control of a test.", "anchors": ["kernel/main.cpp:35-41"]}
{"id": "C75", "title": "Type transformations mean what the standard says", "statement": "remove_const, remove_volatile, remove_cv, add_const, add_volatile, add_cv, remove_reference, add_lvalue_reference, add_rvalue_reference, add_pointer and decay give, for every type, the type the language defines.", "quantifier": "all types: cv-qualified, pointers, references, arrays, functions, member pointers", "why_tests_cant": "The tests name two dozen types; there are infinitely many, and the qualifier and noexcept combinations are easily missed.", "anchors": ["estl/type_traits.hpp:26-208", "estl/type_traits.hpp:332-426"]}
{"id": "C76", "title": "Every type is in exactly one primary category", "statement": "For every type exactly one of is_void, is_integral, is_float, is_array, is_enum, is_union, is_class, is_function, is_pointer, is_lvalue_reference, is_rvalue_reference, is_member_object_pointer and is_member_function_pointer holds, and it is the right one.", "quantifier": "all types", "why_tests_cant": "Tests try a few types per trait; the missing ones are exactly those nobody tried.", "anchors": ["estl/type_traits.hpp:26-102", "estl/type_traits.hpp:231-303", "estl/type_traits.hpp:506-585"]}
{"id": "C77", "title": "conjunction, disconjunction and not_ are and, or and not", "statement": "For every list of conditions, conjunction holds if and only if all hold, disconjunction if and only if one holds.", "quantifier": "all lists of conditions, of any length", "why_tests_cant": "Neither is tested; conjunction is right on uniform lists.", "anchors": ["estl/type_traits.hpp:431-504"]}
{"id": "C78", "title": "is_convertible accepts exactly the implicit conversions", "statement": "is_convertible holds if and only if the argument converts implicitly; so a default_deleter converts only from the deleter of a type whose pointer converts.", "quantifier": "all arithmetic and object pointer types and all class hierarchies", "why_tests_cant": "What is accepted wrongly compiles silently.", "anchors": ["estl/type_traits.hpp:470-480", "estl/memory.hpp:12-18"]}
{"id": "C79", "title": "forward and move preserve types and give the right value category", "statement": "A function template with a parameter T&& that forwards it passes on the type and value category of its argument; forwarding an rvalue as lvalue is refused; move always gives an rvalue of the same type; nth_type finds the type at its position.", "quantifier": "all types and value categories", "why_tests_cant": "Each use in a test fixes one type and category.", "anchors": ["estl/utility.hpp:6-22", "estl/type_traits.hpp:623-652"]}
{"id": "C80", "title": "fill, min, max, array access and tuple assignment do what they say", "statement": "fill and fill_n write the value to exactly the given range, even if the value lies in it; min and max return a least and a greatest argument and, together, both arguments; back is the last element; tuple assignment copies every element and changes nothing else, also on itself.", "quantifier": "all memories, ranges, orders and tuple sizes", "why_tests_cant": "Aliasing and ties need inputs that the tests do not use.", "anchors": ["estl/algorithm.hpp:5-38", "estl/array.hpp:25-66", "estl/tuple.hpp:140-190"]}
{"id": "C81", "title": "The %f conversion prints the nearest decimal", "statement": "For every double, %f with k fraction digits prints the sign, the integer part and the k digits of the decimal fraction nearest to the value, padded as requested, cut at the end of the buffer.", "quantifier": "all finite doubles, all widths and numbers of fraction digits, all formats around them", "why_tests_cant": "The rounding errors of the two floating-point operations show only next to ties; the scale wraps only for ten or more digits.", "anchors": ["kernel/src/util/string.cpp:294-331"]}
{"id": "C82", "title": "Ownership graphs: exactly what is kept stays", "statement": "Over any sequential history of shared_ptr and weak_ptr variables and of such handles inside managed objects, nothing undefined happens and every destruction ends; an object exists if and only if not all its holders go, it is destroyed once, its block is freed once, with its last handle; without circles nothing is left when the variables are gone.", "quantifier": "all histories, any number of objects with any members, any shape of the graph", "why_tests_cant": "Destructors that run destructors: the order in which counts, members and blocks go matters only for shapes the tests do not build.", "anchors": ["estl/memory.hpp:326-807"]}
{"id": "C83", "title": "Any text appears on the screen as a typewriter would put it", "statement": "Printing any text, with newlines, tabs and page ends, leaves the screen of a typewriter with 56 lines of 180 places: each character in its place, the rest as it was, or a black page after the last place was filled; no place is struck twice; the only undefined case is a page left by newlines.", "quantifier": "all texts, fonts, colours, cursor positions and pictures before", "why_tests_cant": "A test looks at a few characters; the claim is about every pixel after any text.", "anchors": ["kernel/src/io/veas.cpp:345-401"]}
{"id": "C84", "title": "printf puts the formatted text on the screen, legibly", "statement": "Any sequence of printf calls leaves the texts their formats and arguments stand for on the screen, one after the other; two texts that look alike agree in every place.", "quantifier": "all formats, arguments, memories and screens; all pairs of texts", "why_tests_cant": "Needs the composition of formatter, buffer, string view and console for all formats.", "anchors": ["kernel/src/io/veas.cpp:6-332", "kernel/src/io/veas.cpp:345-401"]}
{"id": "C85", "title": "A fault is reported on the screen with its number, name and registers", "statement": "When an exception is taken, two lines appear with the vector, its name, the error code and the rip, rflags, cs, rsp and ss of the interrupted program.", "quantifier": "all vectors, interrupted states, error codes and screens with two lines left", "why_tests_cant": "Faults cannot be raised in unit tests; the path goes through assembly.", "anchors": ["kernel/src/core/interrupt.cpp:200-242", "kernel/src/core/isrs.s:1-60"]}
{"id": "C86", "title": "The boot messages appear on the screen", "statement": "After start-up the top of the screen shows the five boot messages with the number of memory ranges, the megabytes available and the page-directory entry.", "quantifier": "all memory maps the BIOS can leave, all entries, all pictures before", "why_tests_cant": "The texts depend on what the firmware left.", "anchors": ["kernel/main.cpp:11-41", "kernel/src/core/e820.cpp:43", "kernel/src/core/interrupt.cpp:7"]}
{"id": "C87", "title": "From the floppy to main", "statement": "With a floppy that holds a loader and a kernel built as the sources say, and a firmware that lists its memory ranges, the boot code ends in main in 64-bit mode with the kernel's tables; the map main reads is the firmware's followed by whatever the last sector of the kernel file looks like, so it is the firmware's exactly when that sector does not look like a range at that place; the boot messages then give its count and megabytes.", "quantifier": "all disks with such files in any clusters, all firmware tables of at most 20 ranges, all disturbances of scratch memory between the stages, all processors with long mode", "why_tests_cant": "Seven stages in three languages and three processor modes; the dependence on the tail of the kernel file shows only for some images.", "anchors": ["bootloader/boot.asm:49-150", "bootloader/loader.asm:68-381", "kernel/head.S:20-111", "kernel/src/core/e820.cpp:17-44"]}
{"id": "C88", "title": "init_memory as a whole: tables behind the kernel, kernel pages marked, low half dropped", "statement": "Given the map stored at 0x7E00, init_memory keeps exactly that map, puts bitmap, page records and zones in order and apart behind the end of the kernel, marks exactly the pages up to the end of the tables, unmaps every address of the low half and leaves every address of the high half as it was after each single write; it ends well exactly when all those pages but the first are usable. Every table access stays in its table if no usable page has a number above the page count, and the tables are mapped exactly when they end within 10 MiB.", "quantifier": "all memory maps, all kernel ends, all record sizes, all virtual addresses, all contents of the remaining memory", "why_tests_cant": "The call is commented out in main; overruns need particular memory sizes.", "anchors": ["kernel/src/core/physical_allocator.cpp:89-263", "kernel/head.S:52-82"]}
{"id": "C89", "title": "The loader reaches memory above 1 MiB", "statement": "From any real-mode state of the loader, the code before the disk is read opens the A20 gate and gives fs a limit of 4 GiB without changing anything else, unless port 92h reads with its reset bit set; from then on every sector is copied from the buffer to its place above 1 MiB, the registers and the limit of fs survive, and the sectors lie one after the other whatever runs in between. Without the gate or without the limit the copy goes wrong.", "quantifier": "all register and memory contents, all values of port 92h, all numbers of sectors, all intervening code that keeps the state", "why_tests_cant": "Emulators start with the gate open and the reset bit clear; the hidden limit of a segment register cannot be read.", "anchors": ["bootloader/loader.asm:13-24", "bootloader/loader.asm:85-103", "bootloader/loader.asm:268-302"]}
{"id": "C90", "title": "The port functions access their port", "statement": "Each of in_byte, out_byte, in_word, out_word, in_dword and out_dword assembles, however the compiler passes the port, to the access of its own width to its port and nothing else.", "quantifier": "all ports, all values, all devices, both ways of passing the port", "why_tests_cant": "Templates of inline functions that are never called are never assembled.", "anchors": ["kernel/include/io/io.hpp:5-48"]}
{"id": "C91", "title": "invoke, apply, function and make_tuple accept what can be called or stored", "statement": "invoke compiles for every call that the INVOKE rules of the standard accept (functions, pointers to them, function objects, pointers to members with an object or a pointer to one); a function can be made from every such callable and a tuple from every value, with or without a name.", "quantifier": "all types of the language, all value categories, all argument lists, all classes with and without const call operators", "why_tests_cant": "What does not compile cannot be put in a test; the tests use the forms that do.", "anchors": ["estl/functional.hpp:6-127", "estl/tuple.hpp:36-130", "estl/tuple.hpp:182-185"]}
{"id": "C92", "title": "Iterators move by positions, and a deque iterator stays with its element", "statement": "Every program of ++, --, += and -= in all forms moves a normal, reverse or deque iterator to the position the arithmetic says and is undefined only if it leaves the range; reading gives the element at that position; a deque iterator keeps reading its element across pushes and pops at both ends that do not remove it.", "quantifier": "all programs of iterator operations, all sequences, all deque histories, all later pushes and pops", "why_tests_cant": "The numbering of the elements changes only when a block is added at the front.", "anchors": ["estl/iterator.hpp:72-296", "estl/deque.hpp:12-98", "estl/deque.hpp:206-220", "estl/deque.hpp:265-289"]}
{"id": "C93", "title": "Copies, moves and assignments of the library's classes compile as in the standard library", "statement": "For an argument that is a variable, a constant or a temporary, construction and assignment compile as for the standard class: pair, tuple, array and guards as their parts do; containers and their adapters always move and are copied when the elements can be; unique_ptr moves only; shared_ptr, weak_ptr, any, function and string_view do everything; atomics are neither copied nor moved but take values; any is made from every value.", "quantifier": "all element types, by which of the six expressions they support; all value categories", "why_tests_cant": "What does not compile cannot be put in a test.", "anchors": ["estl/pair.hpp:12-35", "estl/tuple.hpp:36-130", "estl/atomic.hpp:90-338", "estl/any.hpp:8-60", "estl/memory.hpp:60-180", "estl/memory.hpp:330-810"]}
{"id": "C94", "title": "Shared ownership is free of data races under the C++ memory model", "statement": "In every execution of any number of threads that copy, drop, hand over and use shared and weak pointers to one object, the making of the object and its control block happens before every access, the destruction of the object after every use, and the freeing of the block after every access to it; this needs exactly that the decrements acquire and release. use_count() is at least 1 while a shared handle is left, and when it gives 1 the uses of the former owners have happened before.", "quantifier": "all numbers of threads, all schedules, all memory orders of the four counter operations, all values a relaxed load may see", "why_tests_cant": "x86 orders more than the language; missing orders show only on other machines or after compiler reordering.", "anchors": ["estl/memory.hpp:325-373", "estl/memory.hpp:411-534", "estl/atomic.hpp:5-20", "estl/atomic.hpp:141-170"]}
{"id": "C95", "title": "Objects are deleted by the deleter they were entrusted to", "statement": "In every program over unique_ptrs with deleters, an object owned under a deleter stays under that deleter through moves, assignments and swaps until that deleter, and no other, deletes it, exactly once; every deleter type that the standard unique_ptr takes can be used, and a tuple can be built whenever each element can be built from its argument.", "quantifier": "all programs over any number of unique_ptrs and objects, all deleter types and values, single objects and arrays, all tuples", "why_tests_cant": "The tests use the stateless default deleter; which overloads are chosen depends on combinations of variables, constants and temporaries.", "anchors": ["estl/memory.hpp:60-262", "estl/tuple.hpp:36-147", "estl/utility.hpp:36-41"]}
{"id": "C96", "title": "Comparisons compile as in the standard library and answer whether the values are equal or ordered", "statement": "For operands that are variables, constants or temporaries, x op y compiles exactly for the types the standard library compares; == answers whether the values are equal, != the opposite, and the order operators agree with < and ==; every ordered type can be the element of a set.", "quantifier": "all types built from numbers, pointers, smart pointers, any, function, atomic, string_view and iterators by pair, vector, list and reverse_iterator; all six operators; all value categories; all values", "why_tests_cant": "What does not compile cannot be put in a test; combinations of types are unbounded.", "anchors": ["estl/memory.hpp:276-324", "estl/memory.hpp:730-778", "estl/pair.hpp:45-73", "estl/vector.hpp:208-218", "estl/list.hpp:161-166", "estl/list.hpp:269-288", "estl/iterator.hpp:151-185", "estl/iterator.hpp:298-332", "estl/rb_tree.hpp:85-130", "estl/rb_tree.hpp:917-922", "estl/utility.hpp:126-153"]}
{"id": "C97", "title": "Hardware interrupts never tear a printed text apart", "statement": "Whatever the kernel and its interrupt handlers print and whenever interrupts arrive, the screen shows whole texts only: those of the interrupted program in its order, and the whole report and texts of each handler between two of them.", "quantifier": "all programs and handlers that print and switch interrupts on and off, all moments at which interrupts arrive, nested to any depth, all divisions of printf into instructions", "why_tests_cant": "Interrupts arrive at unpredictable instructions; no test can place one at each of them.", "anchors": ["kernel/src/io/veas.cpp:321-332", "kernel/src/io/veas.cpp:362-389", "kernel/include/core/interrupt.hpp:123-134", "kernel/include/core/arch.hpp:19-26", "kernel/src/core/interrupt.cpp:171-192", "kernel/src/core/interrupt.cpp:244-255"]}
{"id": "C98", "title": "An interrupt handler is called with the data it was registered with", "statement": "Whatever handlers are registered and unregistered, and whenever interrupts arrive meanwhile, every call of a handler passes the data it was registered with.", "quantifier": "all programs that register, unregister and switch interrupts on and off, all lines, handlers and data, all moments at which interrupts arrive", "why_tests_cant": "The wrong data is only seen by an interrupt between two particular instructions.", "anchors": ["kernel/src/core/interrupt.cpp:129-139", "kernel/src/core/interrupt.cpp:152-160", "kernel/src/core/interrupt.cpp:178-192", "kernel/include/core/interrupt.hpp:119", "estl/tuple.hpp:140-147", "estl/tuple.hpp:187-190"]}
{"id": "C99", "title": "Interrupts do not nest and need a bounded stack", "statement": "Whenever hardware interrupts arrive and system calls are made, at most one interrupt is under way at a time, every iretq finds its frame, and the stack used is at most what the program needs plus one stub and one handler, however many interrupts there are; within a guard there are none.", "quantifier": "all programs, handlers and system calls, all stack addresses, all moments at which interrupts arrive, any number of them", "why_tests_cant": "Stack overflow by nesting needs interrupts at particular instructions, many times over.", "anchors": ["kernel/src/core/irqs.s:5-43", "kernel/src/core/syscall.s:4-42", "kernel/src/core/store_ctx.s:3-58", "kernel/src/core/interrupt.cpp:171-177", "kernel/src/core/interrupt.cpp:244-255", "kernel/include/core/interrupt.hpp:123-134", "kernel/include/core/arch.hpp:19-26"]}
{"id": "C100", "title": "Set and multiset iterators stay with their elements", "statement": "In every program over one set or multiset and any number of iterators (insert, erase by iterator, range and key, clear, begin, end, find, lower_bound, upper_bound, ++ and --) whose iterators are valid where they are used, every operation ends, the elements are those the specification gives, every iterator designates the element it was given until that element is erased, whatever else is inserted or erased, and afterwards using it is undefined.", "quantifier": "all element types and strict weak orders, all programs of any length, all iterators, sets and multisets", "why_tests_cant": "Rebalancing moves nodes in ways that depend on the whole history; tests use few iterators at a time.", "anchors": ["estl/set.hpp:57-145", "estl/set.hpp:199-283", "estl/rb_tree.hpp:166-303", "estl/rb_tree.hpp:646-657", "estl/rb_tree.hpp:678-902"]}
{"id": "C101", "title": "The last screen is the boot report followed by the value written or by one page fault", "statement": "Whatever the memory map, whichever pages were used before, and whatever the processor looks up, forgets and the kernel writes between the accesses of main, main reaches its end: the screen shows the five lines of the boot report with the directory entry 4000e1 and then the report of exception 14 with error code 3, or, exactly if the processor still holds the old translation of the page, the line *p = 2; at that time exactly the page at 4 MiB is read-only.", "quantifier": "all maps left by the BIOS, all accessed and dirty bits, all cached translations, all sequences of look-ups, evictions and writes between any two accesses, all contents of registers", "why_tests_cant": "Which translation is cached differs from processor to processor and from run to run.", "anchors": ["kernel/main.cpp:35-46", "kernel/head.S:54-82", "kernel/src/core/interrupt.cpp:236-242", "kernel/src/core/isrs.s", "kernel/src/core/e820.cpp:43", "kernel/src/io/veas.cpp:325-343"]}
{"id": "C102", "title": "Members that lead to an element compile and show it const as in the standard library", "statement": "A program that goes from element to element through nested containers, iterators, pairs and pointers compiles exactly if it does with the standard library and reaches an object of the same type and constness; an element of a constant container cannot be written.", "quantifier": "all element types and containers nested to any depth, all sequences of accesses (front, back, top, [], data, begin, end, find, bounds, *, ->, ++, --, + and - n, named const or not, reverse_iterator)", "why_tests_cant": "A template member is only compiled where it is used; tests use few combinations.", "anchors": ["estl/array.hpp:18-74", "estl/vector.hpp:220-242", "estl/vector.hpp:285-315", "estl/list.hpp:52-71", "estl/list.hpp:115-224", "estl/list.hpp:376-404", "estl/deque.hpp:13-97", "estl/deque.hpp:149-171", "estl/deque.hpp:206-220", "estl/queue.hpp:48-54", "estl/stack.hpp:40-46", "estl/set.hpp:57-145", "estl/rb_tree.hpp:205-298", "estl/rb_tree.hpp:646-705", "estl/rb_tree.hpp:845-913", "estl/iterator.hpp:38-150", "estl/iterator.hpp:200-296", "estl/memory.hpp:134-142", "estl/memory.hpp:630-640"]}
{"id": "C103", "title": "A registered handler serves every interrupt of its line, and an unregistered one none", "statement": "Once RegisterIrqHandler has returned for a free line, each interrupt of the line that the processor takes calls that handler with its data, exactly once, and no other handler of the line, until it is unregistered; once UnRegisterIrqHandler has returned, the handler is not called any more unless it is registered again.", "quantifier": "all tables, all sequences of registrations, unregistrations, sti and cli, all interrupts at all instructions", "why_tests_cant": "An interrupt between two chosen stores cannot be produced by a test at will.", "anchors": ["kernel/src/core/interrupt.cpp:129-139", "kernel/src/core/interrupt.cpp:152-160", "kernel/src/core/interrupt.cpp:178-192", "kernel/src/core/interrupt.cpp:244-255"]}
{"id": "C104", "title": "The text screen tells how far the start of the machine has come", "statement": "Whatever was on the screen, boot.asm and loader.asm leave a blank screen with exactly these lines: the greeting of the boot sector followed by one dot for each sector of the loader, or by the message that there is none; and, on every second row from the third on, the reports of the loader up to the first failure, after which it stops; the video mode is set exactly if everything was found.", "quantifier": "all contents and cursors of all pages of the screen, all numbers of sectors, all outcomes of the search, of the memory map and of the video information, all addresses of the messages", "why_tests_cant": "Needs machines whose BIOS fails in each of these ways; lengths of the messages are written by hand.", "anchors": ["bootloader/boot.asm:15-47", "bootloader/boot.asm:96-107", "bootloader/boot.asm:125-150", "bootloader/loader.asm:39-52", "bootloader/loader.asm:68-82", "bootloader/loader.asm:162-173", "bootloader/loader.asm:248-252", "bootloader/loader.asm:313-376"]}
{"id": "C105", "title": "memory::init prints the memory map and the usable memory", "statement": "memory::init prints a title, then for each record of the memory map the loader stored, in order, one line with the halves of address and length and the type in decimal, then the total length of the usable records in megabytes, rounded to five digits.", "quantifier": "all contents of memory, all maps, all places of the buffer of printf", "why_tests_cant": "The map is given by the firmware; the total is a chain of roundings of doubles followed by those of %f.", "anchors": ["kernel/src/core/physical_allocator.cpp:6-31", "kernel/src/util/string.cpp:294-331", "bootloader/loader.asm:328-342"]}
{"id": "C106", "title": "Smart pointers convert as the pointers they hold do", "statement": "A unique_ptr, shared_ptr or weak_ptr to T can be made from, or assigned, a null pointer, a raw pointer or a smart pointer to U exactly when the standard library allows it: between owners when U* converts to T*, from raw pointers and weak_ptr only by direct initialisation. A unique_ptr to an array takes only arrays whose elements differ in qualifiers.", "quantifier": "all class hierarchies with any bases, private or ambiguous ones included, all pairs of qualified object types, all kinds of arguments and both forms of initialisation", "why_tests_cant": "Whether a conversion compiles cannot be tested by running a program, and the pairs of types are unbounded.", "anchors": ["estl/memory.hpp:27-48", "estl/memory.hpp:91-114", "estl/memory.hpp:179-264", "estl/memory.hpp:546-586", "estl/memory.hpp:653-655", "estl/memory.hpp:671-695"]}
