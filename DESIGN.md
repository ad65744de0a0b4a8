# Design of the lokky verification

Subject: `/repo` (the Rust crate `lokky`: scoped-allocator versions of `Box`, `Vec`, `SmallVec`,
`String`, `Rc`, `Arc` and `Urc`). Everything here is Coq 8.16.1 (`/verif/rocq`, logical name `Verif`),
built on the standard library and std++.

## 1. Model

### Numbers and build profiles
`usize` is `N` with the bounds of a 64-bit target. Each `+ - *` of the source is `uadd/usub/umul`,
which panics on overflow when `e_checks = true` (debug build) and wraps when `e_checks = false`
(release build). `debug_assert!` is active only when `e_checks`. `e_strict` selects how preconditions
that the hardware would not notice (overlapping `copy_nonoverlapping`, integers made from uninitialised
memory) are treated: as undefined (`true`, the language rule) or as plain memory accesses (`false`).
Theorems quantify over the profile, hence over all four combinations.

### Outcomes
A computation is `S -> res A * S` with `res A = Ret a | Panic p | Abort | UB u`. The state is kept on a
panic, so what is left after unwinding can be stated. Parameters and locals that Rust drops while
unwinding are dropped explicitly (`on_unwind`, `with_local`).

### Memory
`world T`: `heap : gmap N (block T)` (block = allocator, size, alignment, list of slots `option T`,
`None` = uninitialised), next block, number of allocator calls, log of allocator events, log of
destructor calls, current scope. A slot that was moved out of bitwise keeps its bits, so that yielding or
dropping it again shows as a second occurrence of the same value. Undefined outcomes: release or resize
of a block that is not live, with another layout or to another allocator; zero-sized or oversized
requests; accesses out of bounds; reads and drops of uninitialised memory; the strict preconditions.
The environment (`Env`) holds arbitrary functions: which allocator calls succeed, which allocator a scope
returns for a selector. An element type (`Elem T`) has arbitrary size and alignment, a destructor that may
panic on any set of values and a `clone` that may panic.

### Concurrency
`ArcModel` and `UrcModel` are transition systems over the atomic steps of all calls in progress on one
allocation, in any number of threads, under the borrow rules of Rust. A run is a list of labels.
`OrdModel`, `ArcOrdModel` and `UrcOrdModel` run the same steps with the memory orderings named in the
code: every counter has the history of its values, every thread (call) knows a part of each history, a load
returns any value not older than what is known, release/acquire pairs, read-modify-write operations and
fences pass knowledge on. Every access is recorded with the set of accesses that happen before it, so that a
data race is a statement about the recorded trace. C95 and C103 connect the two kinds of model.

### Files
| model | specification | proofs | property file | models |
|---|---|---|---|---|
| `Base`, `Mem`, `Count` | `SpecLog` | `MemProofs`, `LogProofs`, `LogProofs2`, `LogFacts` | `PropertiesLog` | outcomes, arithmetic, heap, allocator log |
| `PtrModel` | | `Witness`, `VecFacts*` | `PropertiesPtr` | `ptr.rs`, `boxed.rs` |
| `BoxModel` | `SpecBox` | `BoxFacts` | `PropertiesBox` | trait impls of `boxed.rs`, programs using boxes |
| `VecModel` | `SpecSeq`, `SpecVec`, `SpecDrop`, `SpecPanic`, `SpecStop`, `SpecDedup` | `VecProofs*`, `VecxProofs`, `VecSettle`, `VecReach`, `VecGrow`, `VecRun`, `ZstComp*`, `VecFacts*`, `PanicFacts*`, `DedupFacts`, `ZstFacts2` | `PropertiesVec`, `PropertiesVec2`, `PropertiesPanic*`, `PropertiesDedup`, `PropertiesZst2` | `vec.rs` with `Vecx`, `RetainIter`, `DrainInner`, `IntoIter` |
| `SmallModel` | `SpecSmall`, `SpecSmallPanic` | `SmallProofs*`, `SmallRun*`, `SmallFacts`, `PanicFacts*` | `PropertiesSmall`, `PropertiesPanic*` | `small_vec.rs` |
| `UtfModel` | `SpecUtf` | `UtfProofs` | | the parts of `core` behind `string.rs` |
| `StrModel` | `SpecStr` | `StrProofs*`, `StrRun`, `StrFacts` | `PropertiesString` | `string.rs` |
| | | `DrainFacts` | `PropertiesDrain` | `drain` of `Vec` and `SmallVec` for every range |
| `DebugModel` | `SpecDebug` | `DebugFacts` | `PropertiesDebug` | `Debug` and `Display` of the containers |
| `MarkModel` | | `MarkProofs`, `MarkFacts` | `PropertiesMark` | markers of `SmallVec` and `String` |
| `FmtModel` | `SpecFmt` | `FmtFacts` | `PropertiesFmt` | formatted writing, `IndexMut` on strings |
| `SpareModel` | | `SpareFacts` | `PropertiesSpare` | spare capacity |
| `NewModel` | `SpecNew` | `NewFacts` | `PropertiesNew` | creation of `Rc`, `Arc`, `Urc` in memory |
| `RcModel` | `SpecRc` | `RcProofs`, `RcRefine`, `RcRun*`, `RcFacts`, `RcWrap` | `PropertiesRc` | `rc.rs`, `MaybeDropped` |
| `RcViewModel` | | `RcViewFacts` | `PropertiesRcView` | comparison, hashing, formatting through `Rc` and `Weak` |
| `CastModel` | | `CastFacts` | `PropertiesCast` | `Rc::downcast` |
| `ArcModel` | `SpecArc` | `ArcProofs`, `ArcFacts`, `ArcWrap` | `PropertiesArc` | `arc.rs`, interleavings |
| `OrdModel` | `SpecOrd` | `OrdProofs` | | histories, views, happens-before |
| `ArcOrdModel` | `SpecArcOrd` | `ArcOrdProofs*`, `ArcOrdFacts` | `PropertiesArcOrd` | `arc.rs` with its memory orderings |
| `UrcModel` | `SpecUrc` | `UrcProofs*`, `UrcFacts*`, `UrcWrap` | `PropertiesUrc` | `urc.rs`, interleavings |
| `UrcOrdModel` | `SpecUrcOrd` | `UrcOrdProofs*`, `UrcOrdFacts` | `PropertiesUrcOrd` | `urc.rs` with its memory orderings |
| `ScopeModel` | `SpecScope` | `ScopeFacts` | `PropertiesScope` | `scope.rs` |
| | `SpecCalm`, `SpecCalmArc`, `SpecCalmUrc` | `CalmFacts`, `CalmRcFacts`, `CalmArcFacts`, `CalmUrcFacts` | `PropertiesCalm*` | which calls stay clear of the defects |

Every definition carries the file and lines it models. Specifications do not mention model helpers.
Property files contain only `Theorem … exact lemma`, `Example` and `Print Assumptions`. Examples show that the
hypotheses of the theorem next to them can be met by a case that is not trivial.

### Properties that are false of the code
The English statement in `properties.jsonl` stays the contract a user relies on. When the code breaks it,
there is a theorem `…_refuted` (a concrete witness, or often "for all inputs"), plus the strongest true
statement (`…_partial`, often an exact description of what the code does for all inputs), and the manifest
says `partial`. Where a natural condition on the calls avoids the defects, there is a further property that is
true without exception (C71–C84, C96, C106).

## 2. Per property

Status and exact theorem names are in `MANIFEST.json`; the sentence after each number is the note there.

### Boxes and pointers
Straight-line computations on the heap model, solved by equations for every world; C85 by induction on programs, with a relation between boxes in memory and cells of the specification.

* C01 (partial) Box::new stores the value and releases it exactly once. False of the code. Box::new is right for values without drop glue and non-zero size (C01_box_partial). For every type with drop glue the fresh, never written memory is destroyed before the value is written (C01_box_drop_glue_refuted), and a zero-sized value asks the allocator for a zero-sized block (C01_box_zst_refuted).
* C02 (proved) Box allocation failure is clean. Every world, every element type; the refused layout is what the error carries and nothing else changes.
* C03 (partial) Box::into_inner moves the value out. False of the code for every box: into_inner reads the value out, then the box is dropped as well.
* C85 (proved) Programs with boxes behave as programs with cells. Values with drop glue and zero-sized values are excluded: creating their boxes is already undefined (C01). BoxModel follows the forwarding impls of src/boxed.rs one by one.

### Vec
A representation predicate `rep w v xs`, one triple per operation (loops by induction), then induction over histories with a conservation ledger (what came in is a permutation of what went out, was destroyed or is still inside) and a frame condition on the rest of the heap. Generic code (`Vecx`, `RetainIter`) is proved once from the laws of its trait, for both instances.

* C04 (proved) Fresh arrays respect the size limit. Every element type, every requested capacity, every allocator answer.
* C05 (partial) Growing never claims memory it does not have. False of the code: the byte size is multiplied without a check in release builds. C05_reserve_partial covers every request, however large, except those whose multiplied size wraps around unnoticed; C05_oversized_refuted: every such request that the allocator serves ends in undefined behaviour or in a vector reporting more capacity than it has; C05_reserve_refuted is a concrete one.
* C06 (partial) Vec behaves as a list over every history. False of the code at exactly two calls: swap_remove of the last index (strict overlap rule) and shrinking an empty vector that owns memory. C06_vec_is_a_list_partial classifies every history of all operations: it follows the list specification to the end or up to the first such call.
* C07 (partial) Vec drops every element exactly once and frees all its memory. Proved for every history all of whose outcomes are defined (no undefined call). False beyond it by the two refutations of C06.
* C08 (partial) Vec operations touch only their own memory. Proved for every history all of whose outcomes are defined; false beyond it by the two refutations of C06.
* C09 (proved) reserve postcondition. All reachable vectors, all requests, both allocator answers.
* C10 (proved) A failed reservation changes nothing. Allocator refusals and capacity overflows for requests of any size, single reservations and the operations that reserve.
* C11 (partial) Pushing is amortised. False of the code: push reserves exactly one more slot, so n pushes reallocate about n times (exact count proved for every n).
* C12 (partial) try_* functions never panic. False of the code: try_reserve and try_reserve_exact panic exactly when len + additional overflows and, in debug builds, when the multiplied byte size does.
* C13 (proved) Index checks. insert, remove and swap_remove, every index.
* C14 (partial) shrink_to / shrink_to_fit. Proved for non-empty results; shrinking an empty vector that owns memory is undefined (C14_shrink_empty_refuted).
* C15 (partial) retain keeps exactly the accepted elements. False of the code: when the first element is accepted the second one is lost. C15_retain_partial states exactly what retain does for every vector and predicate, C15_retain_panics_partial also when the predicate or a destructor panics.
* C16 (partial) dedup removes exactly consecutive repetitions. False of the code, same defect as C15; C16_*_partial state exactly what the functions do.
* C17 (partial) drain removes a range. False of the code for every vector and range: the slice is taken after the length was set to the start of the range, so every non-empty range panics (C17_drain_refuted, C17_range_refuted). A range starting beyond the length makes the vector claim memory without elements; only one starting beyond the capacity, with checks on, leaves it intact (C17_range_partial).
* C18 (partial) Vec::split_off splits. False of the code for every vector and index: the returned vector is empty and self is unchanged.
* C19 (proved) IntoIter yields every element once, front to back. Every vector, every number of next calls, then dropping the iterator.
* C20 (partial) IntoIter is double ended. False of the code: next_back yields an element again once the two ends have met. C20_double_ended_partial covers histories up to that point.
* C21 (partial) IntoIter reports its exact remaining length. as_slice is right (C21_as_slice_partial); size_hint ignores the items already taken from the front (C21_size_hint_refuted).
* C22 (partial) Vec::from(slice) copies the slice. False of the code for every non-empty slice: it panics. The empty slice is right (C22_from_slice_partial).
* C23 (proved) Vec::from(array), FromIterator and Clone build the same contents. Arrays of every length, iterators of every length and size hint, clones of every reachable vector.
* C24 (partial) Vec::leak hands out a slice that stays valid. False of the code for every vector that owns memory: leak drops the vector it leaks.
* C25 (partial) Boxed slices round-trip. Proved for non-empty boxed slices; an empty boxed slice frees a dangling pointer when dropped.
* C26 (partial) The allocation marker sticks. with_marker forgets its marker (C26_marker_refuted); a marker given at allocation stays through every history (C26_marker_partial).
* C27 (proved) Memory goes back to the allocator it came from. Every history of all operations.
* C28 (partial) Panicking destructors do not cause double drops. For truncate and drop: exactly which elements are destroyed, the outcome and the memory, for every set of panicking destructors (SpecDrop); clear destroys the elements again when the vector is dropped (C28_clear_refuted).
* C29 (proved) Panicking callbacks do not cause double drops. Predicates, key functions, equality functions and iterators that panic at any point.
* C30 (partial) Zero-sized elements work. Every history of a vector of zero-sized values behaves as a list (C30_zst_history_partial), but dropping the vector gives a dangling pointer to the allocator (C30_zst_drop_refuted).
* C31 (proved) Comparisons and hashes depend on contents only. Vec and SmallVec, inline and on the heap, any inline capacities.
* C72 (proved) Vec used without emptying shrinks is a list. The uses excluded are exactly those that C06 shows to be undefined (SpecVec.unsound).
* C73 (proved) Vec::swap_remove before the last index. The condition on the index is the exact complement of the undefined case (C06).
* C88 (proved) Spare capacity of a vector. The caller's part (writing the MaybeUninit slots, then set_len) is modelled as the documented protocol; calm_vec of SpecCalm lists the later calls.
* C109 (proved) Vec of elements whose destructors panic. C06-C08 without the assumption that destructors do not panic. SpecPanic.settle and dspec say what a panicking destructor changes. The undefined calls of C06 remain.
* C111 (proved) Panicking destructors in retain, dedup and iterators. C15, C16, C19 and C29 with destructors that panic. SpecStop.stops_at says that a call ends at the first panic. What retain and dedup keep of the elements is in C15, C16 and their refutations; the rest of the iterator histories is in C20.
* C112 (proved) Panicking destructors in conversions. C23 and the conversions of C40 with destructors that panic. SpecPanic.settle says when the process ends. SmallVec::clone is From<&[T]>. An array that fits inline is lost (C37), an empty Vec cannot become a boxed slice (C24, C40).
* C118 (partial) Compaction, iteration, conversion and destruction of Vecs of zero-sized elements. Holds of what the iterator yields (C118_into_iter_partial), of append and of construction from an array (C118_append_partial, C118_from_array_partial), and a full vector refuses to grow without any change (C118_full_partial). into_boxed_slice of a vector from new gives an empty slice (C118_boxed_refuted). retain and dedup lose the second element when the first is kept, as for other element types (C15, C16): C118_retain_refuted; apart from that element they are right (C118_retain_partial, C118_dedup_partial). Dropping the vector after any history, or its iterator after any calls, releases a dangling pointer (C118_drop_refuted), which strengthens C30_zst_drop_refuted.
* C119 (partial) dedup_by and dedup_by_key keep what their closures write. After an element was kept, dedup_by goes on comparing with the slot it was moved out of. So writes to a kept element other than the first are lost, and what the closure took out of it is destroyed a second time (C119_replace_refuted). C119_dedup_by_partial states exactly what happens for every closure, C119_dedup_by_reads_partial that a closure that leaves the kept element alone is served correctly, C119_dedup_by_key_partial the same for dedup_by_key, whose key function only sees elements before they are moved; C119_dedup_by_key_panics_partial for key functions that panic and C119_dedup_by_key_bombs_partial for destructors that panic. All up to the lost second element of C16. SmallVec does the same (C71).

### SmallVec
The same scheme with two storage kinds: the slots inside the value, or a `Vec`.

* C32 (partial) SmallVec behaves as a list over every history. Every history of every inline capacity follows the list specification to its end or up to the first call listed in SpecSmall.unsound_small (C32_small_vec_is_a_list_partial). Those calls are undefined (C32_small_vec_is_a_list_refuted).
* C33 (partial) SmallVec drops every element exactly once. Every value that came in is handed back once or destroyed once and the heap is as before, unless truncate was called while inline (C33_small_ledger_partial); inline truncate loses the elements it cuts off (C33_small_ledger_refuted).
* C34 (partial) SmallVec stays inline while it fits. Proved when the inline capacity is at least MIN_NON_ZERO_CAP - 1 (C34_stays_inline_partial), with the exact condition in C34_inline_exact_partial; capacity 2 spills on the second push (C34_stays_inline_refuted).
* C35 (partial) try_move_to_stack moves the elements back inline. Inline vectors and heap vectors that do not fit (C35_move_to_stack_partial); every heap vector that fits is freed and then used again (C35_move_to_stack_refuted).
* C36 (partial) SmallVec::resize / resize_with reach the requested length. Proved up to the inline capacity, on the heap, and whenever resize's reservation spills (C36_*_partial); otherwise resize panics, and resize_with beyond the inline capacity always does (C36_resize_refuted).
* C37 (partial) SmallVec::from(array) holds the array. Arrays longer than the inline capacity and empty arrays (C37_from_array_partial); every other array gives an empty vector and is lost (C37_from_array_refuted).
* C38 (partial) SmallVec::split_off splits. Every at < len (C38_split_off_partial); at == len panics (C38_split_off_refuted).
* C39 (partial) SmallVec index checks and bounds. C39_insert_partial and C39_remove_partial cover every call that is defined; C39_insert_refuted and C39_remove_refuted are the others: out of bounds accesses with valid or invalid indices on inline vectors.
* C40 (partial) SmallVec conversions preserve contents. Everything but into_boxed_slice of an empty inline vector (C40_into_boxed_slice_refuted), which asks the allocator for zero bytes.
* C71 (proved) SmallVec compacts like Vec, inline or spilled. Vec and SmallVec are driven by the same generic code; both instances are shown to satisfy the same laws.
* C74 (proved) SmallVec as stack, buffer and array is a list. SpecCalm.calm_small lists the calls; the excluded ones are covered by C32, C35 and C39.
* C75 (proved) Spilled SmallVec is a list. SpecCalm.calm_heap lists the calls; the move itself may only fail when the allocator refuses.
* C89 (proved) Spare capacity of a small vector. set_len of SmallVec is private, so there is no filling protocol.
* C110 (proved) SmallVec of elements whose destructors panic. C32 and C33 without the assumption that destructors do not panic. SpecSmallPanic.dsspec says what a panicking destructor changes. The undefined calls of C32 and the loss by inline truncate (C33_small_ledger_refuted) remain.
* C113 (proved) The marker of a SmallVec. Holds without exception, unlike the same claim about Vec (C26) and String (C114): a SmallVec remembers its marker next to its storage.
* C115 (partial) SmallVec::drain removes a range. False of the code for every SmallVec and every range, inline and on the heap, as for Vec (C17).
* C117 (partial) SmallVec of zero-sized elements. Holds while everything fits inline (capacity at least 4) without insert and move_to_heap. Refuted beyond: capacity() of the spilled vector is usize::MAX, so try_reserve overflows and every later push panics; dropping the spilled vector releases a dangling pointer. A spilled vector still follows the list specification for the calls that ask for no room (C117_heap_partial); try_move_to_stack on it releases the dangling pointer too (C117_to_stack_refuted). retain and dedup, inline and spilled, do what they do for Vec (C117_retain_partial, C117_dedup_partial); split_off inline is right (C117_split_off_partial). Construction from an array that fits inline loses the elements as in C37 (C117_from_array_refuted), a larger one is held (C117_from_array_partial). into_vec keeps the elements but yields a Vec whose drop is undefined (C117_into_vec_refuted). insert inline has the precondition problem of C39.

### String
UTF-8 and UTF-16 are specified arithmetically (`SpecUtf`); the encoder, the validator and the boundary test of the model are proved against it by case analysis on byte classes, then string histories refine sequences of characters over the Vec triples.

* C41 (partial) A String is always valid UTF-8. Every history from every constructor keeps the bytes well-formed, up to an undefined call if there is one, except through as_mut_vec (C41_utf8_partial); as_mut_vec is safe and lets any byte in (C41_utf8_refuted).
* C42 (partial) String behaves as a sequence of characters. C42_history_partial and C42_call_partial: every history and every single call act on the sequence of characters, or the call is one of SpecStr.tunsound. C42_panics_exact: wrong byte indices, and only they, panic. C42_uninit_refuted: push of a non-ASCII character and insert build integers from uninitialised memory.
* C43 (proved) from_utf8 accepts exactly well-formed UTF-8. Every byte vector with any history; well-formedness is stated arithmetically in SpecUtf.v.
* C44 (partial) from_utf16 decodes exactly well-formed UTF-16. C44_from_utf16_partial is the full statement up to refused allocations and, in the strict reading, the uninitialised integers of push (C44_from_utf16_refuted).
* C45 (partial) Building a String from text. False of the code for every non-empty text: the conversions panic (C45_from_text_refuted). The empty text is right (C45_from_text_partial).
* C46 (partial) String::split_off splits. False of the code for every text and boundary: the returned string is empty and self keeps everything (C46_split_off_refuted). Bad indices panic, no memory is lost (C46_split_off_partial).
* C47 (proved) String comparison is code point order. Any two strings with any histories; C47_order_total shows that the specified order is total and consistent with equality.
* C48 (partial) Collecting and extending Strings concatenates. Texts, strings made on demand, existing strings, boxed texts (C48_extend_boxes_partial: none of them empty unless the allocator never refuses), collecting and + are proved, with release of all items; characters up to the strict reading (C48_chars_refuted). After a refusal the remaining boxes are dropped, which is undefined for an empty one (C48_boxes_refuted).
* C76 (proved) String edits characters and stays UTF-8. SpecCalm.calm_text lists the calls; the excluded ones are covered by C41, C42 and C46.
* C77 (proved) String::from_utf16 decodes. The complement of C44_from_utf16_refuted.
* C78 (proved) String extends by characters. The complement of C48_chars_refuted.
* C90 (partial) Formatted writing into a string. Everything holds in the reading where uninitialised integers do not count, and otherwise as long as single characters are ASCII (C90_all, C90_write_partial); a non-ASCII write_char goes through uninit_bits (C90_char_refuted).
* C91 (proved) Mutable slices of a string. The use made of the slice is ASCII case mapping, the only mutation safe code can do on &mut str besides splitting it.
* C97 (proved) Cloning a string. With C47 (comparison) and C41/C42 (histories).
* C114 (partial) The marker of a String. Holds of a non-zero starting capacity (C114_string_partial); with_marker and a starting capacity of zero forget the marker (C114_string_refuted), as for Vec (C26).
* C116 (partial) What formatting a container shows. Right for Vec, SmallVec and Display of String. Debug of String calls Display, so it writes the bare text for every string (C116_debug_refuted).

### Rc
State machine with any number of boxes and handles. Forward simulation between memory (`RcModel`) and handle sets (`SpecRc`), invariants over all histories.

* C49 (partial) Rc counts are the live handles. C49_counts_partial: every history follows the specification, in which counts are numbers of live handles, to its end or up to a call that takes the last Rc from a value with Weaks. C49_counts_bounds_partial: after any history at all the weak count is exact and the strong count exact or one too big until the value is moved out. C49_counts_refuted: one live Rc reporting two. These are for fewer than 2^64 - 2 calls; at the greatest count a call panics without effect in builds with overflow checks (C49_overflow_partial) and the count becomes zero in the others (C49_zero_refuted).
* C50 (partial) Rc destroys the value when the last handle goes. False of the code for every history: no destructor of a shared value ever runs and no block is ever freed (C50_never_released_refuted; witness C50_released_refuted). C50_kept_partial is the safe half: the box of a live handle is always allocated.
* C51 (partial) Weak::upgrade fails after the last Rc is gone. upgrade succeeds while an Rc is alive (C51_upgrade_partial) and, in histories that orphan no value, exactly then (C51_upgrade_exact_partial). After the last Rc is dropped it still succeeds (C51_upgrade_refuted). A box whose strong count is zero is never upgraded (C51_dead_partial).
* C52 (proved) Rc::get_mut is exclusive. Every history, including those that orphan values.
* C53 (partial) Rc::make_mut copies on write. Proved for every history that orphans no value and calls on values without Weaks (or with other Rcs). With a Weak outstanding on the only Rc: panic in debug builds, a moved-out value reachable in release builds (C53_make_mut_refuted).
* C54 (partial) Rc::try_unwrap moves the value out. Any history: the value is given out only to the only Rc, otherwise nothing changes (C54_try_unwrap_partial); histories that orphan nothing: exactly then, and no handle is left (C54_try_unwrap_exact_partial). The moved-out value stays reachable through a Weak, a revived value is never given out, and the memory is never released (C54_try_unwrap_refuted).
* C79 (proved) Rc without downgrade is a shared cell. All refuted parts of C49-C54 need a Weak made with downgrade.
* C98 (proved) Comparing, hashing and formatting through Rc. Every history, including those that orphan values, as long as dereferencing itself is defined.
* C99 (partial) Debug output of Weak. Proved for histories that do not take the last Rc away from a Weak; afterwards the old value is shown, or a moved-out value is read (C99_weak_debug_refuted). A box whose strong count is zero is shown as deallocated (C99_dead_partial).
* C108 (partial) Rc::downcast keeps the counts. Holds of a value of another type and of the only handle (C108_downcast_partial). Otherwise self is dropped on success, so the count is one too small (C108_downcast_refuted) and get_mut gives a mutable reference to a shared value (C108_shared_mut_refuted).

### Arc, interleavings
One inductive invariant over all steps of all interleavings; counting handles by program point (`Count`). Runs of fewer than 2^64 - 8 steps, so that the counters cannot wrap.

* C55 (partial) Arc never uses freed or destroyed data. Proved for every interleaving without an allocator refusal inside make_mut after the value was moved out (C55_safe_partial); with such a refusal a handle is left whose value is gone (C55_safe_refuted). Sequentially consistent memory, fewer than 2^64 - 8 steps.
* C56 (partial) Arc destroys the value with the last handle. Proved without refusals in make_mut and for destructors that do not panic; a panicking destructor leaks the memory (C56_last_handle_refuted).
* C57 (partial) Arc memory is released when the last Weak goes. False of the code: Weak has no Drop, so once a Weak was made the memory is never freed (C57_never_freed_refuted, C57_freed_refuted). C57_freed_partial: it is freed exactly when no Weak was ever made.
* C58 (proved) Arc::get_mut is exclusive. Every interleaving of fewer than 2^64 - 8 steps, including refusals in make_mut. C58_get_mut: an uninterrupted get_mut succeeds exactly for an only handle without Weaks.
* C59 (partial) Arc::downgrade terminates. Uninterrupted calls return (C59_downgrade_partial); a call that lost a race never does (C59_stuck_refuted, C59_downgrade_refuted).
* C60 (partial) Arc strong count is the number of handles. Exact in runs of fewer than 2^64 - 8 steps up to forgotten handles and panicked clones, which stay counted (C60_count_partial). A panicking clone has counted, so the count wraps to zero (C60_wrap_refuted).
* C61 (partial) Arc::try_unwrap hands out the value once. Proved without refusals in make_mut (C61_unwrap_partial); after one, try_unwrap hands out a moved-out value although there are two handles (C61_unwrap_refuted).
* C62 (partial) Arc weak count is the number of Weak handles. weak_count is the number of Weaks ever made (C62_weak_count_partial); dropped ones stay counted (C62_weak_count_refuted). For fewer than 2^64 - 8 steps; the 2^64 - 1st downgrade locks the counter for good (C62_limit_refuted).
* C80 (proved) Arc without make_mut is safe. SpecCalmArc.plain_arc is a condition on the calls; make_mut is covered by C55-C62.
* C81 (proved) Arc without Weak and make_mut releases everything. The complement of the refuted parts of C56 and C57.
* C82 (proved) Arc counts without make_mut. The complement of the refuted parts of C60 and C62.
* C83 (proved) Arc::try_unwrap and get_mut without make_mut. The complement of the refuted part of C61; get_mut in general is C58.

### Arc, release/acquire
Invariant on views: who is counted in the latest value of `strong` has passed on all accesses that happened before its decrement.

* C92 (partial) Arc has no data races. Holds as long as no allocation in make_mut is refused after the value was moved out (C92_race_free_partial); afterwards the counter is wrong and a destruction races with a read (C92_race_free_refuted). Model: per-location histories, views, release sequences, fences, as in operational release/acquire semantics.
* C93 (partial) Arc keeps the value alive under weak memory. As C55-C57 with all orderings (C93_*_partial); same exceptions (C93_safe_refuted, C93_last_handle_refuted: a dropped Weak keeps the memory forever).
* C94 (proved) The mutable reference of an Arc is exclusive under weak memory. Also after a refused allocation. C94_stale_ex: without knowing the latest count get_mut may return None to the only handle.
* C95 (proved) Interleavings are executions under weak memory. Connects C55-C62 and C80-C83 (ArcModel) with C92-C96 (ArcOrdModel). C95_more_ex: the converse is false.
* C96 (proved) Arc without make_mut under weak memory. The complement of the refuted parts of C92 and C93.

### Urc, interleavings
The same method for the two levels of counters.

* C63 (proved) Sharing a Urc across threads is safe. Every interleaving of fewer than 2^64 - 8 steps of everything but try_unwrap and make_mut; C63_safe_more: also with those, as long as no exchange in try_unwrap succeeds and no make_mut moves the value. Sequentially consistent memory; handles of one fence stay in one thread (they are not Send). Without the bound on the steps see C65_wrap_refuted.
* C64 (partial) Urc destroys the value with the last handle. False of the code: in every run the shared block is never freed and the library never destroys the value (C64_never_refuted, C64_destroyed_refuted). The memory of each fence is freed exactly once when its handles are gone (C64_fences_partial).
* C65 (partial) Urc fence counts are exact. Counts of a fence are exact up to forgotten handles (C65_fence_counts_partial). The shared counter also counts fences left with only Weaks (C65_strong_fences_partial, C65_strong_fences_refuted); with nothing but Urcs it is exact (C65_urcs_partial). These are for fewer than 2^64 - 8 steps; at the greatest value a call panics without effect in builds with overflow checks (C65_overflow_partial) and the count wraps round in the others, so that a fence in use is released (C65_zero_refuted, C65_wrap_refuted).
* C66 (partial) Urc::try_unwrap is sound. Before any exchange succeeded: success only for the only Urc (C66_only_partial); refused without change when another thread has a Urc (C66_refused_partial); right when there is a Weak (C66_taken_partial). The only handle without Weaks reads freed memory, always (C66_freed_refuted); failure with a second Urc on the fence zeroes the counter (C66_counter_refuted).
* C67 (partial) Urc::make_mut copies on write. A copy when another thread has a Urc (C67_copy_partial), a move for the only handle in release builds (C67_move_partial). Debug builds always panic for the only handle (C67_panic_refuted); release builds move the value away from a second Urc of the fence (C67_steal_refuted).
* C68 (partial) Urc::get_mut is exclusive and repeatable. Exclusive and, when weak_fence is zero, exact (C68_exclusive_partial, C68_exact_partial). A refusal because of another thread makes all later calls fail (C68_repeat_refuted); after a failed try_unwrap it is not exclusive (C68_exclusive_refuted).
* C84 (proved) Urc used for sharing only. SpecUrc.sharing and SpecCalmUrc list the calls; make_mut and try_unwrap are covered by C63-C68. The memory of the master is never released by drops (C64).

### Urc, release/acquire
The same method as for Arc, for the two counters of the master.

* C100 (partial) Urc has no data races. Holds as long as no exchange of try_unwrap succeeds and no make_mut moves the value (C100_race_free_partial); after a try_unwrap that fails although its exchange succeeded, the counter is wrong and a write races with a read (C100_race_free_refuted). Same memory model as C92.
* C101 (partial) The mutable reference of an Urc is exclusive under weak memory. Exclusive before the counter of strong fences is set to zero (C101_exclusive_partial); not afterwards (C101_exclusive_refuted).
* C102 (partial) Urc keeps the value alive under weak memory. As C63 and C64 with all orderings, before the counter is set to zero (C102_*_partial); try_unwrap of the only handle reads freed memory (C102_safe_refuted).
* C103 (proved) Interleavings of Urc calls are executions under weak memory. Connects C63-C68 and C84 (UrcModel) with C100-C106 (UrcOrdModel). C103_more_ex: the converse is false.
* C104 (partial) Urc::get_mut of the only handle under weak memory. Succeeds if the thread knows the latest counts (C104_get_mut_partial). With an old count the call fails and leaves weak_fence locked, so that every later call fails as well (C104_get_mut_refuted).
* C105 (partial) Moving the value out of an Urc under weak memory. Before the counter is set to zero: C105_unwrap_partial, C105_make_mut_partial. After a failed try_unwrap the value is moved out while another handle reads it (C105_unwrap_refuted).
* C106 (proved) Urc used for sharing under weak memory. The complement of the refuted parts of C100-C102; SpecUrc.sharing lists the calls.

### Allocator log of SmallVec and String
Every function keeps the replay invariant of `LogProofs` (as for C27); balance from the ledgers of C33 and C41.

* C107 (proved) Memory of SmallVec and String goes back to the allocator it came from. C107_small_log and C107_string_log hold of every history without restriction; C107_*_balanced of histories without undefined calls.

### Creating shared pointers
Equations on the heap model with the layouts of the structs.

* C86 (proved) Creating a shared pointer. At the level of memory, with the layouts of the structs; the counters of Arc and Urc are plain numbers here because the memory is not shared yet.
* C87 (partial) A refused creation of a shared pointer. The outcomes are right and existing memory is untouched; memory is exactly as before unless it is the second allocation of Urc that is refused (C87_*_partial). The value is never destroyed because it already sits in a MaybeDropped (C87_value_refuted), and a refused second allocation of Urc::try_new leaks the master with the value (C87_urc_leak_refuted).

### Scopes and markers
C69 by induction on programs of nested `spawn`s; C70 directly.

* C69 (partial) Scopes nest. If no panic passes through spawn, nesting is right for every program, where the reference stored is the first two words of the scope value (C69_nest_partial), hence right when these are a reference to the scope itself (C69_nest_self_partial). A spawn that returns restores the scope that was current before it, whatever its body did (C69_restore_partial). Otherwise a wrong reference is current (C69_wrong_scope_refuted), small scopes panic (C69_small_scope_refuted), and after a panic the dead scope stays current (C69_panic_refuted).
* C70 (partial) Marker and selector equality are lawful. Lawful for all markers and selectors; markers of one type are equal and of different types differ if type names have one address per type (C70_*_partial), which the language does not promise (C70_names_refuted).

## 3. Trusted base

* The Coq kernel (and `coqchk`). `Print Assumptions` stands under every property theorem, and for each of them
  prints `Closed under the global context`: no axiom is used by any theorem.
* Loading std++ also loads `Coq.ssr.ssrunder`, so the whole-library listing of `coqchk -o` (and of `vcheck`) names
  the seven constants `Coq.ssr.ssrunder.Under_rel.*` of a module type instance in Coq's own library. No theorem here
  depends on them.
* std++ (definitions of maps and lists in statements) as compiled; all of it is checked by the kernel.
* The hand translation from Rust to Gallina, checked by reading only; line references are given.
* The behaviour of the parts of Rust and `core` used by the code: slices and iteration, pointer read, write and copy,
  `Layout::array`, `char::encode_utf8`, `str::from_utf8`, `char::decode_utf16`, drop order, unwinding, the
  borrow rules, `Send`/`Sync`, the release/acquire fragment of the memory model (`OrdModel`).

### Not modelled
* `downcast*` of `Box`, `Arc` and `Urc` (they only change the type of the pointer; no pointer to `dyn Any` can be created by the crate), `Debug`/`Display` of `Arc`, `Urc` and the comparisons through `Arc` and `Urc` (one-line forwarding after a dereference), `Pointer` formatting, `Borrow`/`AsRef` plumbing, `Rc: From<Box>` (its first step is undefined, C03), conversions between `Box<str>` and `Box<[u8]>`, `from_utf8_unchecked`, thread creation in `scope.rs`.
* Pointer provenance and aliasing rules, alignment of addresses, reuse of addresses by the allocator.
* In the concurrent models: `SeqCst` beyond acquire and release; runs of 2^64 - 8 steps or more are left out of the
  theorems except those of `ArcWrap` and `UrcWrap` (C62, C65), which are about counters at their greatest value;
  the modification order of a counter is the order of the writes in the run (see the headers of `ArcOrdModel` and
  `UrcOrdModel` for why that loses nothing there).
* 32-bit targets, `test_log.rs` and the tests.

## 4. Wrong programs

`seeded/LOG.jsonl` lists edits of the model as a realistic bug would make them, the claim each breaks, the theorems
that stopped proving, and the theorems tightened because of an edit that was not noticed. Every edit in the log makes at
least one theorem of the claim it breaks fail (after the tightening it lists), except O08 and O09, which are recorded
because they turned out not to break any claim: the orders they weaken are not needed.

How to read `theorems_failed`: after an edit, every lemma whose proof script no longer goes through is admitted in the
scratch copy, and a property theorem counts as failed when it rests on such a lemma. A theorem that is not listed
really still holds of the edited program. A theorem that is listed is usually false of it, but it may also only need
another proof, so the list is an upper bound; the log does not contain a refutation for each entry.
