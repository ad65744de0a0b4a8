{
 "claims": [
  {
   "property": "C01",
   "status": "partial",
   "theorems": [
    "C01_box_partial",
    "C01_box_drop_glue_refuted",
    "C01_box_zst_refuted"
   ],
   "note": "False of the code. Box::new is right for values without drop glue and non-zero size (C01_box_partial). For every type with drop glue the fresh, never written memory is destroyed before the value is written (C01_box_drop_glue_refuted), and a zero-sized value asks the allocator for a zero-sized block (C01_box_zst_refuted)."
  },
  {
   "property": "C02",
   "status": "proved",
   "theorems": [
    "C02_box_refused",
    "C02_box_no_environment"
   ],
   "note": "Every world, every element type; the refused layout is what the error carries and nothing else changes."
  },
  {
   "property": "C03",
   "status": "partial",
   "theorems": [
    "C03_into_inner_refuted"
   ],
   "note": "False of the code for every box: into_inner reads the value out, then the box is dropped as well."
  },
  {
   "property": "C04",
   "status": "proved",
   "theorems": [
    "C04_with_capacity",
    "C04_with_capacity_zst"
   ],
   "note": "Every element type, every requested capacity, every allocator answer."
  },
  {
   "property": "C05",
   "status": "partial",
   "theorems": [
    "C05_reserve_partial",
    "C05_oversized_refuted",
    "C05_reserve_refuted"
   ],
   "note": "False of the code: the byte size is multiplied without a check in release builds. C05_reserve_partial covers every request, however large, except those whose multiplied size wraps around unnoticed; C05_oversized_refuted: every such request that the allocator serves ends in undefined behaviour or in a vector reporting more capacity than it has; C05_reserve_refuted is a concrete one."
  },
  {
   "property": "C06",
   "status": "partial",
   "theorems": [
    "C06_vec_is_a_list_partial",
    "C06_swap_remove_last_refuted",
    "C06_shrink_empty_refuted"
   ],
   "note": "False of the code at exactly two calls: swap_remove of the last index (strict overlap rule) and shrinking an empty vector that owns memory. C06_vec_is_a_list_partial classifies every history of all operations: it follows the list specification to the end or up to the first such call."
  },
  {
   "property": "C07",
   "status": "partial",
   "theorems": [
    "C07_vec_ledger_partial",
    "C06_swap_remove_last_refuted",
    "C06_shrink_empty_refuted"
   ],
   "note": "Proved for every history all of whose outcomes are defined (no undefined call). False beyond it by the two refutations of C06."
  },
  {
   "property": "C08",
   "status": "partial",
   "theorems": [
    "C08_vec_frame_partial",
    "C06_swap_remove_last_refuted",
    "C06_shrink_empty_refuted"
   ],
   "note": "Proved for every history all of whose outcomes are defined; false beyond it by the two refutations of C06."
  },
  {
   "property": "C09",
   "status": "proved",
   "theorems": [
    "C09_reserve_exact",
    "C09_reserve"
   ],
   "note": "All reachable vectors, all requests, both allocator answers."
  },
  {
   "property": "C10",
   "status": "proved",
   "theorems": [
    "C10_try_reserve_refused",
    "C10_growth_refused"
   ],
   "note": "Allocator refusals and capacity overflows for requests of any size, single reservations and the operations that reserve."
  },
  {
   "property": "C11",
   "status": "partial",
   "theorems": [
    "C11_push_amortised_refuted"
   ],
   "note": "False of the code: push reserves exactly one more slot, so n pushes reallocate about n times (exact count proved for every n)."
  },
  {
   "property": "C12",
   "status": "partial",
   "theorems": [
    "C12_try_reserve_exact_panics_refuted",
    "C12_try_reserve_panics_refuted"
   ],
   "note": "False of the code: try_reserve and try_reserve_exact panic exactly when len + additional overflows and, in debug builds, when the multiplied byte size does."
  },
  {
   "property": "C13",
   "status": "proved",
   "theorems": [
    "C13_insert_index",
    "C13_remove_index",
    "C13_swap_remove_index"
   ],
   "note": "insert, remove and swap_remove, every index."
  },
  {
   "property": "C14",
   "status": "partial",
   "theorems": [
    "C14_shrink_partial",
    "C14_shrink_to_fit_partial",
    "C14_shrink_empty_refuted"
   ],
   "note": "Proved for non-empty results; shrinking an empty vector that owns memory is undefined (C14_shrink_empty_refuted)."
  },
  {
   "property": "C15",
   "status": "partial",
   "theorems": [
    "C15_retain_panics_partial",
    "C15_retain_partial",
    "C15_retain_refuted"
   ],
   "note": "False of the code: when the first element is accepted the second one is lost. C15_retain_partial states exactly what retain does for every vector and predicate, C15_retain_panics_partial also when the predicate or a destructor panics."
  },
  {
   "property": "C16",
   "status": "partial",
   "theorems": [
    "C16_dedup_partial",
    "C16_dedup_by_key_partial",
    "C16_dedup_refuted"
   ],
   "note": "False of the code, same defect as C15; C16_*_partial state exactly what the functions do."
  },
  {
   "property": "C17",
   "status": "partial",
   "theorems": [
    "C17_range_refuted",
    "C17_range_partial",
    "C17_drain_refuted",
    "C17_drain_empty_refuted",
    "C17_next_partial",
    "C17_next_back_refuted"
   ],
   "note": "False of the code for every vector and range: the slice is taken after the length was set to the start of the range, so every non-empty range panics (C17_drain_refuted, C17_range_refuted). A range starting beyond the length makes the vector claim memory without elements; only one starting beyond the capacity, with checks on, leaves it intact (C17_range_partial)."
  },
  {
   "property": "C18",
   "status": "partial",
   "theorems": [
    "C18_split_off_refuted"
   ],
   "note": "False of the code for every vector and index: the returned vector is empty and self is unchanged."
  },
  {
   "property": "C19",
   "status": "proved",
   "theorems": [
    "C19_into_iter"
   ],
   "note": "Every vector, every number of next calls, then dropping the iterator."
  },
  {
   "property": "C20",
   "status": "partial",
   "theorems": [
    "C20_double_ended_partial",
    "C20_double_ended_refuted"
   ],
   "note": "False of the code: next_back yields an element again once the two ends have met. C20_double_ended_partial covers histories up to that point."
  },
  {
   "property": "C21",
   "status": "partial",
   "theorems": [
    "C21_as_slice_partial",
    "C21_size_hint_refuted"
   ],
   "note": "as_slice is right (C21_as_slice_partial); size_hint ignores the items already taken from the front (C21_size_hint_refuted)."
  },
  {
   "property": "C22",
   "status": "partial",
   "theorems": [
    "C22_from_slice_refuted",
    "C22_from_slice_partial"
   ],
   "note": "False of the code for every non-empty slice: it panics. The empty slice is right (C22_from_slice_partial)."
  },
  {
   "property": "C23",
   "status": "proved",
   "theorems": [
    "C23_from_array",
    "C23_from_iter",
    "C23_clone"
   ],
   "note": "Arrays of every length, iterators of every length and size hint, clones of every reachable vector."
  },
  {
   "property": "C24",
   "status": "partial",
   "theorems": [
    "C24_leak_refuted"
   ],
   "note": "False of the code for every vector that owns memory: leak drops the vector it leaks."
  },
  {
   "property": "C25",
   "status": "partial",
   "theorems": [
    "C25_boxed_slice_partial",
    "C25_boxed_slice_refuted"
   ],
   "note": "Proved for non-empty boxed slices; an empty boxed slice frees a dangling pointer when dropped."
  },
  {
   "property": "C26",
   "status": "partial",
   "theorems": [
    "C26_marker_partial",
    "C26_marker_refuted"
   ],
   "note": "with_marker forgets its marker (C26_marker_refuted); a marker given at allocation stays through every history (C26_marker_partial)."
  },
  {
   "property": "C27",
   "status": "proved",
   "theorems": [
    "C27_allocator_log",
    "C27_no_bad_release"
   ],
   "note": "Every history of all operations."
  },
  {
   "property": "C28",
   "status": "partial",
   "theorems": [
    "C28_truncate_drop_partial",
    "C28_drop_partial",
    "C28_clear_refuted"
   ],
   "note": "For truncate and drop: exactly which elements are destroyed, the outcome and the memory, for every set of panicking destructors (SpecDrop); clear destroys the elements again when the vector is dropped (C28_clear_refuted)."
  },
  {
   "property": "C29",
   "status": "proved",
   "theorems": [
    "C29_retain",
    "C29_dedup_by_key",
    "C29_dedup_by",
    "C29_growing"
   ],
   "note": "Predicates, key functions, equality functions and iterators that panic at any point."
  },
  {
   "property": "C30",
   "status": "partial",
   "theorems": [
    "C30_zst_history_partial",
    "C30_zst_drop_refuted"
   ],
   "note": "Every history of a vector of zero-sized values behaves as a list (C30_zst_history_partial), but dropping the vector gives a dangling pointer to the allocator (C30_zst_drop_refuted)."
  },
  {
   "property": "C31",
   "status": "proved",
   "theorems": [
    "C31_small_compare",
    "C31_small_hash",
    "C31_vec_compare",
    "C31_vec_hash"
   ],
   "note": "Vec and SmallVec, inline and on the heap, any inline capacities."
  },
  {
   "property": "C32",
   "status": "partial",
   "theorems": [
    "C32_small_vec_is_a_list_partial",
    "C32_small_vec_is_a_list_refuted"
   ],
   "note": "Every history of every inline capacity follows the list specification to its end or up to the first call listed in SpecSmall.unsound_small (C32_small_vec_is_a_list_partial). Those calls are undefined (C32_small_vec_is_a_list_refuted)."
  },
  {
   "property": "C33",
   "status": "partial",
   "theorems": [
    "C33_small_ledger_partial",
    "C33_small_ledger_refuted"
   ],
   "note": "Every value that came in is handed back once or destroyed once and the heap is as before, unless truncate was called while inline (C33_small_ledger_partial); inline truncate loses the elements it cuts off (C33_small_ledger_refuted)."
  },
  {
   "property": "C34",
   "status": "partial",
   "theorems": [
    "C34_stays_inline_partial",
    "C34_inline_exact_partial",
    "C34_stays_inline_refuted"
   ],
   "note": "Proved when the inline capacity is at least MIN_NON_ZERO_CAP - 1 (C34_stays_inline_partial), with the exact condition in C34_inline_exact_partial; capacity 2 spills on the second push (C34_stays_inline_refuted)."
  },
  {
   "property": "C35",
   "status": "partial",
   "theorems": [
    "C35_move_to_stack_partial",
    "C35_move_to_stack_refuted"
   ],
   "note": "Inline vectors and heap vectors that do not fit (C35_move_to_stack_partial); every heap vector that fits is freed and then used again (C35_move_to_stack_refuted)."
  },
  {
   "property": "C36",
   "status": "partial",
   "theorems": [
    "C36_resize_partial",
    "C36_resize_with_partial",
    "C36_resize_refuted"
   ],
   "note": "Proved up to the inline capacity, on the heap, and whenever resize's reservation spills (C36_*_partial); otherwise resize panics, and resize_with beyond the inline capacity always does (C36_resize_refuted)."
  },
  {
   "property": "C37",
   "status": "partial",
   "theorems": [
    "C37_from_array_partial",
    "C37_from_array_refuted"
   ],
   "note": "Arrays longer than the inline capacity and empty arrays (C37_from_array_partial); every other array gives an empty vector and is lost (C37_from_array_refuted)."
  },
  {
   "property": "C38",
   "status": "partial",
   "theorems": [
    "C38_split_off_partial",
    "C38_split_off_refuted"
   ],
   "note": "Every at < len (C38_split_off_partial); at == len panics (C38_split_off_refuted)."
  },
  {
   "property": "C39",
   "status": "partial",
   "theorems": [
    "C39_insert_partial",
    "C39_insert_refuted",
    "C39_remove_partial",
    "C39_remove_refuted"
   ],
   "note": "C39_insert_partial and C39_remove_partial cover every call that is defined; C39_insert_refuted and C39_remove_refuted are the others: out of bounds accesses with valid or invalid indices on inline vectors."
  },
  {
   "property": "C40",
   "status": "partial",
   "theorems": [
    "C40_from_slice",
    "C40_clone",
    "C40_from_iter",
    "C40_extend",
    "C40_from_vec",
    "C40_from_box",
    "C40_into_vec",
    "C40_into_boxed_slice_partial",
    "C40_into_boxed_slice_refuted"
   ],
   "note": "Everything but into_boxed_slice of an empty inline vector (C40_into_boxed_slice_refuted), which asks the allocator for zero bytes."
  },
  {
   "property": "C41",
   "status": "partial",
   "theorems": [
    "C41_utf8_partial",
    "C41_utf8_refuted"
   ],
   "note": "Every history from every constructor keeps the bytes well-formed, up to an undefined call if there is one, except through as_mut_vec (C41_utf8_partial); as_mut_vec is safe and lets any byte in (C41_utf8_refuted)."
  },
  {
   "property": "C42",
   "status": "partial",
   "theorems": [
    "C42_history_partial",
    "C42_call_partial",
    "C42_panics_exact",
    "C42_uninit_refuted"
   ],
   "note": "C42_history_partial and C42_call_partial: every history and every single call act on the sequence of characters, or the call is one of SpecStr.tunsound. C42_panics_exact: wrong byte indices, and only they, panic. C42_uninit_refuted: push of a non-ASCII character and insert build integers from uninitialised memory."
  },
  {
   "property": "C43",
   "status": "proved",
   "theorems": [
    "C43_from_utf8"
   ],
   "note": "Every byte vector with any history; well-formedness is stated arithmetically in SpecUtf.v."
  },
  {
   "property": "C44",
   "status": "partial",
   "theorems": [
    "C44_from_utf16_partial",
    "C44_from_utf16_refuted"
   ],
   "note": "C44_from_utf16_partial is the full statement up to refused allocations and, in the strict reading, the uninitialised integers of push (C44_from_utf16_refuted)."
  },
  {
   "property": "C45",
   "status": "partial",
   "theorems": [
    "C45_from_text_refuted",
    "C45_from_text_partial"
   ],
   "note": "False of the code for every non-empty text: the conversions panic (C45_from_text_refuted). The empty text is right (C45_from_text_partial)."
  },
  {
   "property": "C46",
   "status": "partial",
   "theorems": [
    "C46_split_off_refuted",
    "C46_split_off_partial"
   ],
   "note": "False of the code for every text and boundary: the returned string is empty and self keeps everything (C46_split_off_refuted). Bad indices panic, no memory is lost (C46_split_off_partial)."
  },
  {
   "property": "C47",
   "status": "proved",
   "theorems": [
    "C47_order",
    "C47_order_total",
    "C47_hash"
   ],
   "note": "Any two strings with any histories; C47_order_total shows that the specified order is total and consistent with equality."
  },
  {
   "property": "C48",
   "status": "partial",
   "theorems": [
    "C48_extend_chars_partial",
    "C48_chars_refuted",
    "C48_extend_strs",
    "C48_extend_strings",
    "C48_extend_boxes_partial",
    "C48_boxes_refuted",
    "C48_collect_strs",
    "C48_collect_strings",
    "C48_add"
   ],
   "note": "Texts, strings made on demand, existing strings, boxed texts (C48_extend_boxes_partial: none of them empty unless the allocator never refuses), collecting and + are proved, with release of all items; characters up to the strict reading (C48_chars_refuted). After a refusal the remaining boxes are dropped, which is undefined for an empty one (C48_boxes_refuted)."
  },
  {
   "property": "C49",
   "status": "partial",
   "theorems": [
    "C49_counts_partial",
    "C49_counts_bounds_partial",
    "C49_counts_refuted",
    "C49_overflow_partial",
    "C49_zero_refuted"
   ],
   "note": "C49_counts_partial: every history follows the specification, in which counts are numbers of live handles, to its end or up to a call that takes the last Rc from a value with Weaks. C49_counts_bounds_partial: after any history at all the weak count is exact and the strong count exact or one too big until the value is moved out. C49_counts_refuted: one live Rc reporting two. These are for fewer than 2^64 - 2 calls; at the greatest count a call panics without effect in builds with overflow checks (C49_overflow_partial) and the count becomes zero in the others (C49_zero_refuted)."
  },
  {
   "property": "C50",
   "status": "partial",
   "theorems": [
    "C50_never_released_refuted",
    "C50_released_refuted",
    "C50_kept_partial"
   ],
   "note": "False of the code for every history: no destructor of a shared value ever runs and no block is ever freed (C50_never_released_refuted; witness C50_released_refuted). C50_kept_partial is the safe half: the box of a live handle is always allocated."
  },
  {
   "property": "C51",
   "status": "partial",
   "theorems": [
    "C51_upgrade_partial",
    "C51_upgrade_exact_partial",
    "C51_upgrade_refuted",
    "C51_dead_partial"
   ],
   "note": "upgrade succeeds while an Rc is alive (C51_upgrade_partial) and, in histories that orphan no value, exactly then (C51_upgrade_exact_partial). After the last Rc is dropped it still succeeds (C51_upgrade_refuted). A box whose strong count is zero is never upgraded (C51_dead_partial)."
  },
  {
   "property": "C52",
   "status": "proved",
   "theorems": [
    "C52_get_mut_exclusive"
   ],
   "note": "Every history, including those that orphan values."
  },
  {
   "property": "C53",
   "status": "partial",
   "theorems": [
    "C53_make_mut_partial",
    "C53_make_mut_refuted"
   ],
   "note": "Proved for every history that orphans no value and calls on values without Weaks (or with other Rcs). With a Weak outstanding on the only Rc: panic in debug builds, a moved-out value reachable in release builds (C53_make_mut_refuted)."
  },
  {
   "property": "C54",
   "status": "partial",
   "theorems": [
    "C54_try_unwrap_partial",
    "C54_try_unwrap_exact_partial",
    "C54_try_unwrap_refuted"
   ],
   "note": "Any history: the value is given out only to the only Rc, otherwise nothing changes (C54_try_unwrap_partial); histories that orphan nothing: exactly then, and no handle is left (C54_try_unwrap_exact_partial). The moved-out value stays reachable through a Weak, a revived value is never given out, and the memory is never released (C54_try_unwrap_refuted)."
  },
  {
   "property": "C55",
   "status": "partial",
   "theorems": [
    "C55_safe_partial",
    "C55_safe_refuted"
   ],
   "note": "Proved for every interleaving without an allocator refusal inside make_mut after the value was moved out (C55_safe_partial); with such a refusal a handle is left whose value is gone (C55_safe_refuted). Sequentially consistent memory, fewer than 2^64 - 8 steps."
  },
  {
   "property": "C56",
   "status": "partial",
   "theorems": [
    "C56_last_handle_partial",
    "C56_last_handle_refuted"
   ],
   "note": "Proved without refusals in make_mut and for destructors that do not panic; a panicking destructor leaks the memory (C56_last_handle_refuted)."
  },
  {
   "property": "C57",
   "status": "partial",
   "theorems": [
    "C57_freed_partial",
    "C57_never_freed_refuted",
    "C57_freed_refuted"
   ],
   "note": "False of the code: Weak has no Drop, so once a Weak was made the memory is never freed (C57_never_freed_refuted, C57_freed_refuted). C57_freed_partial: it is freed exactly when no Weak was ever made."
  },
  {
   "property": "C58",
   "status": "proved",
   "theorems": [
    "C58_exclusive",
    "C58_get_mut"
   ],
   "note": "Every interleaving of fewer than 2^64 - 8 steps, including refusals in make_mut. C58_get_mut: an uninterrupted get_mut succeeds exactly for an only handle without Weaks."
  },
  {
   "property": "C59",
   "status": "partial",
   "theorems": [
    "C59_downgrade_partial",
    "C59_stuck_refuted",
    "C59_downgrade_refuted"
   ],
   "note": "Uninterrupted calls return (C59_downgrade_partial); a call that lost a race never does (C59_stuck_refuted, C59_downgrade_refuted)."
  },
  {
   "property": "C60",
   "status": "partial",
   "theorems": [
    "C60_count_partial",
    "C60_wrap_refuted"
   ],
   "note": "Exact in runs of fewer than 2^64 - 8 steps up to forgotten handles and panicked clones, which stay counted (C60_count_partial). A panicking clone has counted, so the count wraps to zero (C60_wrap_refuted)."
  },
  {
   "property": "C61",
   "status": "partial",
   "theorems": [
    "C61_unwrap_partial",
    "C61_unwrap_refuted"
   ],
   "note": "Proved without refusals in make_mut (C61_unwrap_partial); after one, try_unwrap hands out a moved-out value although there are two handles (C61_unwrap_refuted)."
  },
  {
   "property": "C62",
   "status": "partial",
   "theorems": [
    "C62_weak_count_partial",
    "C62_weak_count_refuted",
    "C62_limit_refuted"
   ],
   "note": "weak_count is the number of Weaks ever made (C62_weak_count_partial); dropped ones stay counted (C62_weak_count_refuted). For fewer than 2^64 - 8 steps; the 2^64 - 1st downgrade locks the counter for good (C62_limit_refuted)."
  },
  {
   "property": "C63",
   "status": "proved",
   "theorems": [
    "C63_safe",
    "C63_read",
    "C63_safe_more"
   ],
   "note": "Every interleaving of fewer than 2^64 - 8 steps of everything but try_unwrap and make_mut; C63_safe_more: also with those, as long as no exchange in try_unwrap succeeds and no make_mut moves the value. Sequentially consistent memory; handles of one fence stay in one thread (they are not Send). Without the bound on the steps see C65_wrap_refuted."
  },
  {
   "property": "C64",
   "status": "partial",
   "theorems": [
    "C64_never_refuted",
    "C64_destroyed_refuted",
    "C64_fences_partial"
   ],
   "note": "False of the code: in every run the shared block is never freed and the library never destroys the value (C64_never_refuted, C64_destroyed_refuted). The memory of each fence is freed exactly once when its handles are gone (C64_fences_partial)."
  },
  {
   "property": "C65",
   "status": "partial",
   "theorems": [
    "C65_fence_counts_partial",
    "C65_strong_fences_partial",
    "C65_urcs_partial",
    "C65_strong_fences_refuted",
    "C65_wrap_refuted",
    "C65_overflow_partial",
    "C65_zero_refuted"
   ],
   "note": "Counts of a fence are exact up to forgotten handles (C65_fence_counts_partial). The shared counter also counts fences left with only Weaks (C65_strong_fences_partial, C65_strong_fences_refuted); with nothing but Urcs it is exact (C65_urcs_partial). These are for fewer than 2^64 - 8 steps; at the greatest value a call panics without effect in builds with overflow checks (C65_overflow_partial) and the count wraps round in the others, so that a fence in use is released (C65_zero_refuted, C65_wrap_refuted)."
  },
  {
   "property": "C66",
   "status": "partial",
   "theorems": [
    "C66_only_partial",
    "C66_refused_partial",
    "C66_taken_partial",
    "C66_freed_refuted",
    "C66_counter_refuted"
   ],
   "note": "Before any exchange succeeded: success only for the only Urc (C66_only_partial); refused without change when another thread has a Urc (C66_refused_partial); right when there is a Weak (C66_taken_partial). The only handle without Weaks reads freed memory, always (C66_freed_refuted); failure with a second Urc on the fence zeroes the counter (C66_counter_refuted)."
  },
  {
   "property": "C67",
   "status": "partial",
   "theorems": [
    "C67_copy_partial",
    "C67_move_partial",
    "C67_panic_refuted",
    "C67_steal_refuted"
   ],
   "note": "A copy when another thread has a Urc (C67_copy_partial), a move for the only handle in release builds (C67_move_partial). Debug builds always panic for the only handle (C67_panic_refuted); release builds move the value away from a second Urc of the fence (C67_steal_refuted)."
  },
  {
   "property": "C68",
   "status": "partial",
   "theorems": [
    "C68_exclusive_partial",
    "C68_exact_partial",
    "C68_repeat_refuted",
    "C68_exclusive_refuted"
   ],
   "note": "Exclusive and, when weak_fence is zero, exact (C68_exclusive_partial, C68_exact_partial). A refusal because of another thread makes all later calls fail (C68_repeat_refuted); after a failed try_unwrap it is not exclusive (C68_exclusive_refuted)."
  },
  {
   "property": "C69",
   "status": "partial",
   "theorems": [
    "C69_nest_partial",
    "C69_nest_self_partial",
    "C69_restore_partial",
    "C69_wrong_scope_refuted",
    "C69_small_scope_refuted",
    "C69_panic_refuted"
   ],
   "note": "If no panic passes through spawn, nesting is right for every program, where the reference stored is the first two words of the scope value (C69_nest_partial), hence right when these are a reference to the scope itself (C69_nest_self_partial). A spawn that returns restores the scope that was current before it, whatever its body did (C69_restore_partial). Otherwise a wrong reference is current (C69_wrong_scope_refuted), small scopes panic (C69_small_scope_refuted), and after a panic the dead scope stays current (C69_panic_refuted)."
  },
  {
   "property": "C70",
   "status": "partial",
   "theorems": [
    "C70_marker_partial",
    "C70_selector_partial",
    "C70_names_refuted"
   ],
   "note": "Lawful for all markers and selectors; markers of one type are equal and of different types differ if type names have one address per type (C70_*_partial), which the language does not promise (C70_names_refuted)."
  },
  {
   "property": "C71",
   "status": "proved",
   "theorems": [
    "C71_retain",
    "C71_dedup_by",
    "C71_dedup",
    "C71_dedup_by_key"
   ],
   "note": "Vec and SmallVec are driven by the same generic code; both instances are shown to satisfy the same laws."
  },
  {
   "property": "C72",
   "status": "proved",
   "theorems": [
    "C72_vec_history"
   ],
   "note": "The uses excluded are exactly those that C06 shows to be undefined (SpecVec.unsound)."
  },
  {
   "property": "C73",
   "status": "proved",
   "theorems": [
    "C73_swap_remove"
   ],
   "note": "The condition on the index is the exact complement of the undefined case (C06)."
  },
  {
   "property": "C74",
   "status": "proved",
   "theorems": [
    "C74_small_history"
   ],
   "note": "SpecCalm.calm_small lists the calls; the excluded ones are covered by C32, C35 and C39."
  },
  {
   "property": "C75",
   "status": "proved",
   "theorems": [
    "C75_spilled_history"
   ],
   "note": "SpecCalm.calm_heap lists the calls; the move itself may only fail when the allocator refuses."
  },
  {
   "property": "C76",
   "status": "proved",
   "theorems": [
    "C76_string_history"
   ],
   "note": "SpecCalm.calm_text lists the calls; the excluded ones are covered by C41, C42 and C46."
  },
  {
   "property": "C77",
   "status": "proved",
   "theorems": [
    "C77_from_utf16"
   ],
   "note": "The complement of C44_from_utf16_refuted."
  },
  {
   "property": "C78",
   "status": "proved",
   "theorems": [
    "C78_extend_chars"
   ],
   "note": "The complement of C48_chars_refuted."
  },
  {
   "property": "C79",
   "status": "proved",
   "theorems": [
    "C79_rc_history"
   ],
   "note": "All refuted parts of C49-C54 need a Weak made with downgrade."
  },
  {
   "property": "C80",
   "status": "proved",
   "theorems": [
    "C80_safe"
   ],
   "note": "SpecCalmArc.plain_arc is a condition on the calls; make_mut is covered by C55-C62."
  },
  {
   "property": "C81",
   "status": "proved",
   "theorems": [
    "C81_released"
   ],
   "note": "The complement of the refuted parts of C56 and C57."
  },
  {
   "property": "C82",
   "status": "proved",
   "theorems": [
    "C82_counts"
   ],
   "note": "The complement of the refuted parts of C60 and C62."
  },
  {
   "property": "C83",
   "status": "proved",
   "theorems": [
    "C83_unwrap",
    "C83_get_mut"
   ],
   "note": "The complement of the refuted part of C61; get_mut in general is C58."
  },
  {
   "property": "C84",
   "status": "proved",
   "theorems": [
    "C84_counts",
    "C84_exclusive",
    "C84_fences",
    "C84_released"
   ],
   "note": "SpecUrc.sharing and SpecCalmUrc list the calls; make_mut and try_unwrap are covered by C63-C68. The memory of the master is never released by drops (C64)."
  },
  {
   "property": "C85",
   "status": "proved",
   "theorems": [
    "C85_boxes"
   ],
   "note": "Values with drop glue and zero-sized values are excluded: creating their boxes is already undefined (C01). BoxModel follows the forwarding impls of src/boxed.rs one by one."
  },
  {
   "property": "C86",
   "status": "proved",
   "theorems": [
    "C86_rc",
    "C86_arc",
    "C86_urc",
    "C86_into_urc"
   ],
   "note": "At the level of memory, with the layouts of the structs; the counters of Arc and Urc are plain numbers here because the memory is not shared yet."
  },
  {
   "property": "C87",
   "status": "partial",
   "theorems": [
    "C87_refused_partial",
    "C87_urc_partial",
    "C87_no_environment_partial",
    "C87_value_refuted",
    "C87_urc_leak_refuted"
   ],
   "note": "The outcomes are right and existing memory is untouched; memory is exactly as before unless it is the second allocation of Urc that is refused (C87_*_partial). The value is never destroyed because it already sits in a MaybeDropped (C87_value_refuted), and a refused second allocation of Urc::try_new leaks the master with the value (C87_urc_leak_refuted)."
  },
  {
   "property": "C88",
   "status": "proved",
   "theorems": [
    "C88_spare",
    "C88_write",
    "C88_fill"
   ],
   "note": "The caller's part (writing the MaybeUninit slots, then set_len) is modelled as the documented protocol; calm_vec of SpecCalm lists the later calls."
  },
  {
   "property": "C89",
   "status": "proved",
   "theorems": [
    "C89_small_spare"
   ],
   "note": "set_len of SmallVec is private, so there is no filling protocol."
  },
  {
   "property": "C90",
   "status": "partial",
   "theorems": [
    "C90_write_partial",
    "C90_all",
    "C90_char_refuted"
   ],
   "note": "Everything holds in the reading where uninitialised integers do not count, and otherwise as long as single characters are ASCII (C90_all, C90_write_partial); a non-ASCII write_char goes through uninit_bits (C90_char_refuted)."
  },
  {
   "property": "C91",
   "status": "proved",
   "theorems": [
    "C91_upper",
    "C91_lower",
    "C91_bad"
   ],
   "note": "The use made of the slice is ASCII case mapping, the only mutation safe code can do on &mut str besides splitting it."
  },
  {
   "property": "C92",
   "status": "partial",
   "theorems": [
    "C92_race_free_partial",
    "C92_race_free_refuted"
   ],
   "note": "Holds as long as no allocation in make_mut is refused after the value was moved out (C92_race_free_partial); afterwards the counter is wrong and a destruction races with a read (C92_race_free_refuted). Model: per-location histories, views, release sequences, fences, as in operational release/acquire semantics."
  },
  {
   "property": "C93",
   "status": "partial",
   "theorems": [
    "C93_safe_partial",
    "C93_safe_refuted",
    "C93_last_handle_partial",
    "C93_last_handle_refuted"
   ],
   "note": "As C55-C57 with all orderings (C93_*_partial); same exceptions (C93_safe_refuted, C93_last_handle_refuted: a dropped Weak keeps the memory forever)."
  },
  {
   "property": "C94",
   "status": "proved",
   "theorems": [
    "C94_exclusive",
    "C94_get_mut"
   ],
   "note": "Also after a refused allocation. C94_stale_ex: without knowing the latest count get_mut may return None to the only handle."
  },
  {
   "property": "C95",
   "status": "proved",
   "theorems": [
    "C95_interleavings"
   ],
   "note": "Connects C55-C62 and C80-C83 (ArcModel) with C92-C96 (ArcOrdModel). C95_more_ex: the converse is false."
  },
  {
   "property": "C96",
   "status": "proved",
   "theorems": [
    "C96_plain",
    "C96_released"
   ],
   "note": "The complement of the refuted parts of C92 and C93."
  },
  {
   "property": "C97",
   "status": "proved",
   "theorems": [
    "C97_clone"
   ],
   "note": "With C47 (comparison) and C41/C42 (histories)."
  },
  {
   "property": "C98",
   "status": "proved",
   "theorems": [
    "C98_compare",
    "C98_hash_fmt"
   ],
   "note": "Every history, including those that orphan values, as long as dereferencing itself is defined."
  },
  {
   "property": "C99",
   "status": "partial",
   "theorems": [
    "C99_weak_debug_partial",
    "C99_weak_debug_refuted",
    "C99_dead_partial"
   ],
   "note": "Proved for histories that do not take the last Rc away from a Weak; afterwards the old value is shown, or a moved-out value is read (C99_weak_debug_refuted). A box whose strong count is zero is shown as deallocated (C99_dead_partial)."
  },
  {
   "property": "C100",
   "status": "partial",
   "theorems": [
    "C100_race_free_partial",
    "C100_race_free_refuted"
   ],
   "note": "Holds as long as no exchange of try_unwrap succeeds and no make_mut moves the value (C100_race_free_partial); after a try_unwrap that fails although its exchange succeeded, the counter is wrong and a write races with a read (C100_race_free_refuted). Same memory model as C92."
  },
  {
   "property": "C101",
   "status": "partial",
   "theorems": [
    "C101_exclusive_partial",
    "C101_exclusive_refuted"
   ],
   "note": "Exclusive before the counter of strong fences is set to zero (C101_exclusive_partial); not afterwards (C101_exclusive_refuted)."
  },
  {
   "property": "C102",
   "status": "partial",
   "theorems": [
    "C102_safe_partial",
    "C102_fences_partial",
    "C102_safe_refuted"
   ],
   "note": "As C63 and C64 with all orderings, before the counter is set to zero (C102_*_partial); try_unwrap of the only handle reads freed memory (C102_safe_refuted)."
  },
  {
   "property": "C103",
   "status": "proved",
   "theorems": [
    "C103_interleavings",
    "C103_continue"
   ],
   "note": "Connects C63-C68 and C84 (UrcModel) with C100-C106 (UrcOrdModel). C103_more_ex: the converse is false."
  },
  {
   "property": "C104",
   "status": "partial",
   "theorems": [
    "C104_get_mut_partial",
    "C104_get_mut_refuted"
   ],
   "note": "Succeeds if the thread knows the latest counts (C104_get_mut_partial). With an old count the call fails and leaves weak_fence locked, so that every later call fails as well (C104_get_mut_refuted)."
  },
  {
   "property": "C105",
   "status": "partial",
   "theorems": [
    "C105_unwrap_partial",
    "C105_make_mut_partial",
    "C105_unwrap_refuted"
   ],
   "note": "Before the counter is set to zero: C105_unwrap_partial, C105_make_mut_partial. After a failed try_unwrap the value is moved out while another handle reads it (C105_unwrap_refuted)."
  },
  {
   "property": "C106",
   "status": "proved",
   "theorems": [
    "C106_sharing"
   ],
   "note": "The complement of the refuted parts of C100-C102; SpecUrc.sharing lists the calls."
  },
  {
   "property": "C107",
   "status": "proved",
   "theorems": [
    "C107_small_log",
    "C107_small_balanced",
    "C107_string_log",
    "C107_string_balanced"
   ],
   "note": "C107_small_log and C107_string_log hold of every history without restriction; C107_*_balanced of histories without undefined calls."
  },
  {
   "property": "C108",
   "status": "partial",
   "theorems": [
    "C108_downcast_partial",
    "C108_downcast_refuted",
    "C108_shared_mut_refuted"
   ],
   "note": "Holds of a value of another type and of the only handle (C108_downcast_partial). Otherwise self is dropped on success, so the count is one too small (C108_downcast_refuted) and get_mut gives a mutable reference to a shared value (C108_shared_mut_refuted)."
  },
  {
   "property": "C109",
   "status": "proved",
   "theorems": [
    "C109_history",
    "C109_ledger"
   ],
   "note": "C06-C08 without the assumption that destructors do not panic. SpecPanic.settle and dspec say what a panicking destructor changes. The undefined calls of C06 remain."
  },
  {
   "property": "C110",
   "status": "proved",
   "theorems": [
    "C110_history",
    "C110_ledger"
   ],
   "note": "C32 and C33 without the assumption that destructors do not panic. SpecSmallPanic.dsspec says what a panicking destructor changes. The undefined calls of C32 and the loss by inline truncate (C33_small_ledger_refuted) remain."
  },
  {
   "property": "C111",
   "status": "proved",
   "theorems": [
    "C111_retain",
    "C111_dedup_by",
    "C111_dedup_by_key",
    "C111_small",
    "C111_into_iter"
   ],
   "note": "C15, C16, C19 and C29 with destructors that panic. SpecStop.stops_at says that a call ends at the first panic. What retain and dedup keep of the elements is in C15, C16 and their refutations; the rest of the iterator histories is in C20."
  },
  {
   "property": "C112",
   "status": "proved",
   "theorems": [
    "C112_from_array",
    "C112_from_iter",
    "C112_clone",
    "C112_small_from_iter",
    "C112_small_from_slice",
    "C112_small_from_array",
    "C112_into_boxed_slice",
    "C112_small_into_vec",
    "C112_small_into_boxed_slice"
   ],
   "note": "C23 and the conversions of C40 with destructors that panic. SpecPanic.settle says when the process ends. SmallVec::clone is From<&[T]>. An array that fits inline is lost (C37), an empty Vec cannot become a boxed slice (C24, C40)."
  },
  {
   "property": "C113",
   "status": "proved",
   "theorems": [
    "C113_history",
    "C113_calls"
   ],
   "note": "Holds without exception, unlike the same claim about Vec (C26) and String (C114): a SmallVec remembers its marker next to its storage."
  },
  {
   "property": "C114",
   "status": "partial",
   "theorems": [
    "C114_string_partial",
    "C114_string_refuted"
   ],
   "note": "Holds of a non-zero starting capacity (C114_string_partial); with_marker and a starting capacity of zero forget the marker (C114_string_refuted), as for Vec (C26)."
  },
  {
   "property": "C115",
   "status": "partial",
   "theorems": [
    "C115_range_refuted",
    "C115_range_partial",
    "C115_next_partial",
    "C115_next_back_refuted"
   ],
   "note": "False of the code for every SmallVec and every range, inline and on the heap, as for Vec (C17)."
  },
  {
   "property": "C116",
   "status": "partial",
   "theorems": [
    "C116_vec_partial",
    "C116_small_partial",
    "C116_display_partial",
    "C116_debug_refuted"
   ],
   "note": "Right for Vec, SmallVec and Display of String. Debug of String calls Display, so it writes the bare text for every string (C116_debug_refuted)."
  },
  {
   "property": "C117",
   "status": "partial",
   "theorems": [
    "C117_inline_partial",
    "C117_spill_refuted",
    "C117_heap_partial",
    "C117_to_stack_refuted",
    "C117_retain_partial",
    "C117_dedup_partial",
    "C117_from_array_refuted",
    "C117_from_array_partial",
    "C117_into_vec_refuted",
    "C117_split_off_partial"
   ],
   "note": "Holds while everything fits inline (capacity at least 4) without insert and move_to_heap. Refuted beyond: capacity() of the spilled vector is usize::MAX, so try_reserve overflows and every later push panics; dropping the spilled vector releases a dangling pointer. A spilled vector still follows the list specification for the calls that ask for no room (C117_heap_partial); try_move_to_stack on it releases the dangling pointer too (C117_to_stack_refuted). retain and dedup, inline and spilled, do what they do for Vec (C117_retain_partial, C117_dedup_partial); split_off inline is right (C117_split_off_partial). Construction from an array that fits inline loses the elements as in C37 (C117_from_array_refuted), a larger one is held (C117_from_array_partial). into_vec keeps the elements but yields a Vec whose drop is undefined (C117_into_vec_refuted). insert inline has the precondition problem of C39."
  },
  {
   "property": "C118",
   "status": "partial",
   "theorems": [
    "C118_retain_partial",
    "C118_dedup_partial",
    "C118_into_iter_partial",
    "C118_retain_refuted",
    "C118_drop_refuted",
    "C118_append_partial",
    "C118_from_array_partial",
    "C118_boxed_refuted",
    "C118_full_partial"
   ],
   "note": "Holds of what the iterator yields (C118_into_iter_partial), of append and of construction from an array (C118_append_partial, C118_from_array_partial), and a full vector refuses to grow without any change (C118_full_partial). into_boxed_slice of a vector from new gives an empty slice (C118_boxed_refuted). retain and dedup lose the second element when the first is kept, as for other element types (C15, C16): C118_retain_refuted; apart from that element they are right (C118_retain_partial, C118_dedup_partial). Dropping the vector after any history, or its iterator after any calls, releases a dangling pointer (C118_drop_refuted), which strengthens C30_zst_drop_refuted."
  },
  {
   "property": "C119",
   "status": "partial",
   "theorems": [
    "C119_dedup_by_partial",
    "C119_dedup_by_reads_partial",
    "C119_dedup_by_key_partial",
    "C119_dedup_by_key_panics_partial",
    "C119_dedup_by_key_bombs_partial",
    "C119_replace_refuted"
   ],
   "note": "After an element was kept, dedup_by goes on comparing with the slot it was moved out of. So writes to a kept element other than the first are lost, and what the closure took out of it is destroyed a second time (C119_replace_refuted). C119_dedup_by_partial states exactly what happens for every closure, C119_dedup_by_reads_partial that a closure that leaves the kept element alone is served correctly, C119_dedup_by_key_partial the same for dedup_by_key, whose key function only sees elements before they are moved; C119_dedup_by_key_panics_partial for key functions that panic and C119_dedup_by_key_bombs_partial for destructors that panic. All up to the lost second element of C16. SmallVec does the same (C71)."
  }
 ]
}