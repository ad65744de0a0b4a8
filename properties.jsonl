{"id": "C01", "title": "Box::new stores the value and releases it exactly once", "statement": "Box::new(x) / Box::new_with(x, marker) yields a box that dereferences to x, living in memory obtained from the allocator that the current scope selects for (type of x, marker); dropping the box runs x's destructor exactly once and returns exactly that memory, with the same layout, to that same allocator, even if another scope has become current meanwhile. No step is undefined behaviour.", "quantifier": "every value, every sized element type (with or without a destructor), every marker, every scope/allocator assignment, every allocator failure pattern", "why_tests_cant": "A test fixes one history, one element type and one allocator; the claim is about every history, every size and every pattern of allocator failures.", "anchors": ["src/ptr.rs: ScopePtr::alloc, alloc_layout, dealloc, Drop", "src/boxed.rs: Box::new, Box::new_with"]}
{"id": "C02", "title": "Box allocation failure is clean", "statement": "When the allocator refuses the request, the fallible constructor reports AllocError and the infallible one panics; the value handed in is destroyed exactly once and no memory is retained.", "quantifier": "every value, every allocator that refuses at that point; for destructors that do not panic (others: C28, C109-C112)", "why_tests_cant": "A test fixes one history, one element type and one allocator; the claim is about every history, every size and every pattern of allocator failures.", "anchors": ["src/ptr.rs: ScopePtr::alloc, alloc_layout", "src/boxed.rs: Box::new"]}
{"id": "C03", "title": "Box::into_inner moves the value out", "statement": "Box::into_inner(b) returns the stored value, frees the box's memory exactly once, and does not run the value's destructor.", "quantifier": "every value and every live box", "why_tests_cant": "A test fixes one history, one element type and one allocator; the claim is about every history, every size and every pattern of allocator failures.", "anchors": ["src/ptr.rs: ScopePtr::into_inner", "src/boxed.rs: Box::into_inner", "src/rc.rs: From<Box<T>> for Rc<T>"]}
{"id": "C04", "title": "Fresh arrays respect the size limit", "statement": "Creating a vector with an explicit capacity either returns a vector with exactly that capacity or an error; a request whose byte size exceeds the platform limit is reported as CapacityOverflow without ever calling the allocator.", "quantifier": "every capacity in usize, every element size and alignment, every allocator", "why_tests_cant": "The interesting capacities are near 2^63 bytes and cannot be allocated in a test.", "anchors": ["src/ptr.rs: alloc_array_uninit", "src/vec.rs: try_with_capacity_and_marker"]}
{"id": "C05", "title": "Growing never claims memory it does not have", "statement": "After reserve / reserve_exact / try_reserve / try_reserve_exact with any argument, whatever the outcome, the reported capacity is backed by an allocation of that many elements; an oversized request is reported as an error or a panic, never by corrupting the vector.", "quantifier": "every current length and capacity, every requested amount in usize, every element size, debug and release builds", "why_tests_cant": "The failing region starts at requests near 2^63 bytes.", "anchors": ["src/ptr.rs: realloc_array", "src/vec.rs: try_reserve, try_reserve_exact, grow_exact, grow_amortized"]}
{"id": "C06", "title": "Vec behaves as a list over every history", "statement": "Any sequence of push, pop, insert, remove, swap_remove, truncate, clear, append, extend, resize, reserve, shrink, indexing and assignment calls returns exactly what the same calls on a mathematical list return, and as_slice()/len() show exactly that list at every point.", "quantifier": "every finite history of those calls, every element type of non-zero size, every argument, every allocator failure pattern, debug and release builds; for destructors that do not panic (others: C28, C109-C112), a total size within the layout limit (beyond: C05)", "why_tests_cant": "A test fixes one history, one element type and one allocator; the claim is about every history, every size and every pattern of allocator failures.", "anchors": ["src/vec.rs: Vec (push, pop, insert, remove, swap_remove, truncate, clear, append, extend_from_slice, extend_from_iter, resize, resize_with, reserve*, shrink*)"]}
{"id": "C07", "title": "Vec drops every element exactly once and frees all its memory", "statement": "Over any such history ended by dropping the vector, every element that was put in is either returned to the caller once or destroyed once, never both and never twice, and the vector's memory is entirely given back.", "quantifier": "every finite history, every allocator failure pattern; for element types of non-zero size (zero: C30, C117, C118), destructors that do not panic (others: C28, C109-C112), a total size within the layout limit (beyond: C05)", "why_tests_cant": "A test fixes one history, one element type and one allocator; the claim is about every history, every size and every pattern of allocator failures.", "anchors": ["src/vec.rs: Vec, impl Drop for Vec"]}
{"id": "C08", "title": "Vec operations touch only their own memory", "statement": "No operation of one vector changes the contents, the liveness or the allocator of any other allocation, and no operation in the supported set performs an out-of-bounds, uninitialised or dangling access.", "quantifier": "every history, every heap surrounding the vector; for element types of non-zero size (zero: C30, C117, C118), a total size within the layout limit (beyond: C05)", "why_tests_cant": "A test fixes one history, one element type and one allocator; the claim is about every history, every size and every pattern of allocator failures.", "anchors": ["src/vec.rs: Vec", "src/ptr.rs: ScopePtr"]}
{"id": "C09", "title": "reserve postcondition", "statement": "After a successful reserve(n) or reserve_exact(n), capacity() >= len() + n, the contents are unchanged and the next n pushes do not call the allocator; reserve_exact on a full vector yields exactly len()+n, and reserve yields max(len()+n, 2*capacity(), minimum) when it has to grow.", "quantifier": "every contents, capacity and n; for element types of non-zero size (zero: C30, C117, C118), a total size within the layout limit (beyond: C05)", "why_tests_cant": "A test fixes one history, one element type and one allocator; the claim is about every history, every size and every pattern of allocator failures.", "anchors": ["src/vec.rs: try_reserve, try_reserve_exact, grow_amortized, MIN_NON_ZERO_CAP"]}
{"id": "C10", "title": "A failed reservation changes nothing", "statement": "If try_reserve / try_reserve_exact returns an error, or reserve / push / insert / extend panics because the allocator refused, the vector still holds the same elements with the same capacity (extending from an iterator: the same elements followed by the items stored before the refusal), and the element passed in was destroyed exactly once.", "quantifier": "every state, every point at which the allocator refuses; for element types of non-zero size (zero: C30, C117, C118)", "why_tests_cant": "Allocator refusal at each possible point cannot be enumerated by tests.", "anchors": ["src/vec.rs: try_reserve*, push, insert, extend_from_slice"]}
{"id": "C11", "title": "Pushing is amortised", "statement": "Pushing n elements one by one calls the allocator O(log n) times (geometric growth).", "quantifier": "every n", "why_tests_cant": "The claim is asymptotic.", "anchors": ["src/vec.rs: push, reserve_exact, grow_amortized"]}
{"id": "C12", "title": "try_* functions never panic", "statement": "try_reserve and try_reserve_exact report every failure through their Result and never panic.", "quantifier": "every argument and state", "why_tests_cant": "Needs all arguments.", "anchors": ["src/vec.rs: try_reserve, try_reserve_exact, overflow_guarded_add", "src/small_vec.rs: try_move_to_heap_and_reserve_exact"]}
{"id": "C13", "title": "Index checks", "statement": "insert panics exactly when index > len, remove and swap_remove panic exactly when index >= len; a panicking call leaves the vector unchanged and destroys the element that was passed in.", "quantifier": "every index, every contents; for element types of non-zero size (zero: C30, C117, C118)", "why_tests_cant": "A test fixes one history, one element type and one allocator; the claim is about every history, every size and every pattern of allocator failures.", "anchors": ["src/vec.rs: insert, remove, swap_remove"]}
{"id": "C14", "title": "shrink_to / shrink_to_fit", "statement": "shrink_to(m) leaves the contents unchanged and brings capacity() down to max(len(), m) when it was larger; shrink_to_fit() makes capacity() equal len().", "quantifier": "every contents (including empty), every m", "why_tests_cant": "A test fixes one history, one element type and one allocator; the claim is about every history, every size and every pattern of allocator failures.", "anchors": ["src/vec.rs: shrink, shrink_to, shrink_to_fit", "src/ptr.rs: realloc_array"]}
{"id": "C15", "title": "retain keeps exactly the accepted elements", "statement": "retain(f) calls f once on each element in order, leaves exactly the accepted elements in their original order and destroys each rejected element exactly once.", "quantifier": "every contents, every (stateful) predicate", "why_tests_cant": "A test fixes one history, one element type and one allocator; the claim is about every history, every size and every pattern of allocator failures.", "anchors": ["src/vec.rs: RetainIter::new, RetainIter::retain, Vec::retain", "src/small_vec.rs: retain"]}
{"id": "C16", "title": "dedup removes exactly consecutive repetitions", "statement": "dedup / dedup_by_key / dedup_by leave the first element of every maximal run of equal elements, in order, and destroy the others exactly once.", "quantifier": "every contents, every equality/key function", "why_tests_cant": "A test fixes one history, one element type and one allocator; the claim is about every history, every size and every pattern of allocator failures.", "anchors": ["src/vec.rs: RetainIter::dedup_by, dedup_by_key, Vec::dedup"]}
{"id": "C17", "title": "drain removes a range", "statement": "drain(a..b) with a <= b <= len yields exactly the elements of the range in order and, when dropped, leaves the vector with the remaining elements; an invalid range panics and leaves the vector intact.", "quantifier": "every contents, every range, every prefix of the drain consumed", "why_tests_cant": "A test fixes one history, one element type and one allocator; the claim is about every history, every size and every pattern of allocator failures.", "anchors": ["src/vec.rs: DrainInner::new, DrainInner::drop, next, next_back", "src/small_vec.rs: drain"]}
{"id": "C18", "title": "Vec::split_off splits", "statement": "split_off(at) with at <= len returns a vector with the elements from at on and leaves the first at elements in the original.", "quantifier": "every contents, every at", "why_tests_cant": "A test fixes one history, one element type and one allocator; the claim is about every history, every size and every pattern of allocator failures.", "anchors": ["src/vec.rs: split_off"]}
{"id": "C19", "title": "IntoIter yields every element once, front to back", "statement": "Iterating a vector by value yields its elements in order, each once; dropping the iterator at any point destroys exactly the elements not yielded and frees the memory.", "quantifier": "every contents, every number of next() calls before dropping; for element types of non-zero size (zero: C30, C117, C118), destructors that do not panic (others: C28, C109-C112)", "why_tests_cant": "A test fixes one history, one element type and one allocator; the claim is about every history, every size and every pattern of allocator failures.", "anchors": ["src/vec.rs: IntoIter::next, Drop for IntoIter"]}
{"id": "C20", "title": "IntoIter is double ended", "statement": "Any interleaving of next() and next_back() yields each element at most once, front elements in order and back elements in reverse order, and both return None once the two ends have met.", "quantifier": "every contents, every interleaving", "why_tests_cant": "All interleavings of the two calls.", "anchors": ["src/vec.rs: DoubleEndedIterator for IntoIter, Drop for IntoIter"]}
{"id": "C21", "title": "IntoIter reports its exact remaining length", "statement": "size_hint()/len() of the by-value iterator equals the number of elements that next() will still yield; as_slice() is exactly those elements.", "quantifier": "every contents, every number of elements already taken", "why_tests_cant": "A test fixes one history, one element type and one allocator; the claim is about every history, every size and every pattern of allocator failures.", "anchors": ["src/vec.rs: IntoIter::size_hint, IntoIter::as_slice"]}
{"id": "C22", "title": "Vec::from(slice) copies the slice", "statement": "Vec::from(&[T]) returns a vector whose elements are clones of the slice's elements in order.", "quantifier": "every slice", "why_tests_cant": "A test fixes one history, one element type and one allocator; the claim is about every history, every size and every pattern of allocator failures.", "anchors": ["src/vec.rs: From<&[T]> for Vec<T>"]}
{"id": "C23", "title": "Vec::from(array), FromIterator and Clone build the same contents", "statement": "Vec::from([T; N]) moves the N elements in order without cloning or dropping; collect() holds exactly the yielded items whatever size hint the iterator claims; clone() holds the clones of the elements in order and leaves the original untouched.", "quantifier": "every array, every item sequence, every (possibly wrong) lower size hint, every contents, every allocator failure; for element types of non-zero size (zero: C30, C117, C118), destructors that do not panic (others: C28, C109-C112), a total size within the layout limit (beyond: C05)", "why_tests_cant": "A test fixes one history, one element type and one allocator; the claim is about every history, every size and every pattern of allocator failures.", "anchors": ["src/vec.rs: From<[T; N]>, FromIterator, Clone"]}
{"id": "C24", "title": "Vec::leak hands out a slice that stays valid", "statement": "leak() returns the elements as a slice that remains readable; no destructor of an element has run and the memory is not freed.", "quantifier": "every contents", "why_tests_cant": "A test fixes one history, one element type and one allocator; the claim is about every history, every size and every pattern of allocator failures.", "anchors": ["src/vec.rs: leak"]}
{"id": "C25", "title": "Boxed slices round-trip", "statement": "into_boxed_slice gives a boxed slice with the same elements; converting back with Vec::from gives the same elements; dropping the boxed slice destroys each element once and frees the memory.", "quantifier": "every contents (including empty), every capacity", "why_tests_cant": "A test fixes one history, one element type and one allocator; the claim is about every history, every size and every pattern of allocator failures.", "anchors": ["src/vec.rs: into_boxed_slice, From<Box<[T]>>", "src/ptr.rs: Drop for ScopePtr"]}
{"id": "C26", "title": "The allocation marker sticks", "statement": "A vector created with a marker reports that marker and every allocation it later makes is requested with that marker.", "quantifier": "every marker, every history", "why_tests_cant": "A test fixes one history, one element type and one allocator; the claim is about every history, every size and every pattern of allocator failures.", "anchors": ["src/vec.rs: with_marker, try_with_capacity_and_marker, grow_exact, marker", "src/small_vec.rs: with_marker"]}
{"id": "C27", "title": "Memory goes back to the allocator it came from", "statement": "Every deallocation and reallocation is issued to the very allocator that served the block, with the layout the block was allocated with, even when the vector is grown or dropped while another scope is current.", "quantifier": "every history, every sequence of scope changes between calls, every allocator selection function; for element types of non-zero size (zero: C30, C117, C118), a total size within the layout limit (beyond: C05)", "why_tests_cant": "All interleavings of scope switches and calls.", "anchors": ["src/ptr.rs: ScopePtr::alloc, dealloc, realloc_array", "src/vec.rs: grow_exact", "src/scope.rs: current"]}
{"id": "C28", "title": "Panicking destructors do not cause double drops", "statement": "If an element's destructor panics during truncate, clear or drop of the vector, no element's destructor runs twice, not even when the vector itself is dropped afterwards during unwinding.", "quantifier": "every contents, every set of elements whose destructor panics", "why_tests_cant": "Every panic point.", "anchors": ["src/vec.rs: truncate, clear, Drop for Vec"]}
{"id": "C29", "title": "Panicking callbacks do not cause double drops", "statement": "If a closure or clone passed to retain, dedup_by_key, resize_with, extend or resize panics at any call, the vector is left in a state whose later drop destroys each remaining element once and nothing twice.", "quantifier": "every contents, every callback, every call index at which it panics; for element types of non-zero size (zero: C30, C117, C118), destructors that do not panic (others: C28, C109-C112), a total size within the layout limit (beyond: C05)", "why_tests_cant": "Every panic point.", "anchors": ["src/vec.rs: RetainIter, ResizeWith::do_resize, extend_from_slice, extend_from_iter"]}
{"id": "C30", "title": "Zero-sized elements work", "statement": "A vector of a zero-sized type supports push/pop/drop with the same results as any other vector and never calls the allocator.", "quantifier": "every history on a zero-sized element type", "why_tests_cant": "A test fixes one history, one element type and one allocator; the claim is about every history, every size and every pattern of allocator failures.", "anchors": ["src/vec.rs: capacity, Drop for Vec, into_boxed_slice", "src/small_vec.rs: try_reserve"]}
{"id": "C31", "title": "Comparisons and hashes depend on contents only", "statement": "Equality, ordering and hash of two vectors (Vec or SmallVec, inline or spilled) are those of their element sequences; capacity, spare memory, storage kind and marker have no influence.", "quantifier": "every pair of vectors; for element types of non-zero size (zero: C30, C117, C118)", "why_tests_cant": "A test fixes one history, one element type and one allocator; the claim is about every history, every size and every pattern of allocator failures.", "anchors": ["src/vec.rs: PartialEq, Ord, Hash", "src/small_vec.rs: PartialEq, Ord, Hash"]}
{"id": "C32", "title": "SmallVec behaves as a list over every history", "statement": "Any sequence of push, pop, insert, remove, swap_remove, truncate, clear, append, extend_from_slice, reserve, move_to_heap and assignment calls returns what the same calls on a list return, whether the elements are inline or on the heap and across any transition between the two.", "quantifier": "every inline capacity N, every history, every allocator failure pattern; for element types of non-zero size (zero: C30, C117, C118), destructors that do not panic (others: C28, C109-C112), a total size within the layout limit (beyond: C05)", "why_tests_cant": "A test fixes one history, one element type and one allocator; the claim is about every history, every size and every pattern of allocator failures.", "anchors": ["src/small_vec.rs: SmallVec, StackVec"]}
{"id": "C33", "title": "SmallVec drops every element exactly once", "statement": "Over any history ended by dropping the SmallVec, every element put in is returned or destroyed exactly once and no memory is kept.", "quantifier": "every inline capacity, every history; for element types of non-zero size (zero: C30, C117, C118), destructors that do not panic (others: C28, C109-C112), a total size within the layout limit (beyond: C05)", "why_tests_cant": "A test fixes one history, one element type and one allocator; the claim is about every history, every size and every pattern of allocator failures.", "anchors": ["src/small_vec.rs: StackVec::truncate, StackVec::drop, SmallVec"]}
{"id": "C34", "title": "SmallVec stays inline while it fits", "statement": "Pushing onto an inline SmallVec that holds fewer than N elements keeps it inline and does not call the allocator.", "quantifier": "every N, every element size, every length below N; for element types of non-zero size (zero: C30, C117, C118)", "why_tests_cant": "All N and sizes.", "anchors": ["src/small_vec.rs: try_reserve, try_reserve_exact, push", "src/vec.rs: MIN_NON_ZERO_CAP"]}
{"id": "C35", "title": "try_move_to_stack moves the elements back inline", "statement": "When len() <= N, try_move_to_stack() makes the vector inline with the same elements, frees the heap block exactly once and destroys no element; otherwise it returns an error and changes nothing.", "quantifier": "every contents, every N; for element types of non-zero size (zero: C30, C117, C118)", "why_tests_cant": "A test fixes one history, one element type and one allocator; the claim is about every history, every size and every pattern of allocator failures.", "anchors": ["src/small_vec.rs: try_move_to_stack", "src/vec.rs: dealloc_without_drop"]}
{"id": "C36", "title": "SmallVec::resize / resize_with reach the requested length", "statement": "resize(n, x) and resize_with(n, f) succeed for every n the allocator can serve and leave len() == n with the old prefix preserved.", "quantifier": "every N, every current contents, every n; for element types of non-zero size (zero: C30, C117, C118), destructors that do not panic (others: C28, C109-C112), a total size within the layout limit (beyond: C05)", "why_tests_cant": "A test fixes one history, one element type and one allocator; the claim is about every history, every size and every pattern of allocator failures.", "anchors": ["src/small_vec.rs: resize, resize_with, StackVec::resize"]}
{"id": "C37", "title": "SmallVec::from(array) holds the array", "statement": "SmallVec::<T, N>::from([T; L]) holds the L elements in order.", "quantifier": "every L and N; for element types of non-zero size (zero: C30, C117, C118), destructors that do not panic (others: C28, C109-C112), a total size within the layout limit (beyond: C05)", "why_tests_cant": "A test fixes one history, one element type and one allocator; the claim is about every history, every size and every pattern of allocator failures.", "anchors": ["src/small_vec.rs: From<[T; L]>"]}
{"id": "C38", "title": "SmallVec::split_off splits", "statement": "split_off(at)/split_off_into(at) with at <= len returns the tail and leaves the head.", "quantifier": "every contents, every at, every pair of inline capacities; for element types of non-zero size (zero: C30, C117, C118), destructors that do not panic (others: C28, C109-C112), a total size within the layout limit (beyond: C05)", "why_tests_cant": "A test fixes one history, one element type and one allocator; the claim is about every history, every size and every pattern of allocator failures.", "anchors": ["src/small_vec.rs: split_off, split_off_into"]}
{"id": "C39", "title": "SmallVec index checks and bounds", "statement": "insert with index > len panics and changes nothing; insert and remove with valid indices access only the vector's own storage.", "quantifier": "every index, every N, debug and release builds; for element types of non-zero size (zero: C30, C117, C118)", "why_tests_cant": "A test fixes one history, one element type and one allocator; the claim is about every history, every size and every pattern of allocator failures.", "anchors": ["src/small_vec.rs: insert, unchecked_insert, unchecked_remove"]}
{"id": "C40", "title": "SmallVec conversions preserve contents", "statement": "From<&[T]>, Clone, FromIterator, Extend, From<Vec<T>>, From<Box<[T]>>, into_vec and into_boxed_slice preserve the element sequence, without dropping or duplicating elements.", "quantifier": "every contents, every N; for element types of non-zero size (zero: C30, C117, C118), destructors that do not panic (others: C28, C109-C112), a total size within the layout limit (beyond: C05)", "why_tests_cant": "A test fixes one history, one element type and one allocator; the claim is about every history, every size and every pattern of allocator failures.", "anchors": ["src/small_vec.rs: From<&[T]>, From<Vec<T>>, Extend, FromIterator, into_vec, into_boxed_slice"]}
{"id": "C41", "title": "A String is always valid UTF-8", "statement": "After any history of String's safe methods, the bytes are well-formed UTF-8.", "quantifier": "every history of safe calls, every char and str argument", "why_tests_cant": "All byte strings and histories.", "anchors": ["src/string.rs: String", "src/string.rs: as_mut_vec"]}
{"id": "C42", "title": "String behaves as a sequence of characters", "statement": "push, push_str, pop, insert, insert_str, remove, truncate, clear and retain on a String have the effect of the corresponding operation on its sequence of Unicode scalar values; the operations taking a byte index panic exactly when it is out of range or not on a character boundary.", "quantifier": "every contents, every char, every byte index, every predicate", "why_tests_cant": "A test fixes one history, one element type and one allocator; the claim is about every history, every size and every pattern of allocator failures.", "anchors": ["src/string.rs: push, pop, remove, insert, insert_bytes, truncate, retain"]}
{"id": "C43", "title": "from_utf8 accepts exactly well-formed UTF-8", "statement": "String::from_utf8(bytes) succeeds exactly when the bytes encode some sequence of Unicode scalar values, keeps the bytes unchanged, and otherwise releases them.", "quantifier": "every byte vector", "why_tests_cant": "All byte strings.", "anchors": ["src/string.rs: from_utf8"]}
{"id": "C44", "title": "from_utf16 decodes exactly well-formed UTF-16", "statement": "String::from_utf16(v) returns the string whose characters are encoded by v, and an error exactly when v contains an unpaired surrogate.", "quantifier": "every sequence of 16-bit units", "why_tests_cant": "All unit sequences.", "anchors": ["src/string.rs: from_utf16"]}
{"id": "C45", "title": "Building a String from text", "statement": "String::from(&str), String::from(char), String::from(&String) and from_str return a string with the same text.", "quantifier": "every text", "why_tests_cant": "A test fixes one history, one element type and one allocator; the claim is about every history, every size and every pattern of allocator failures.", "anchors": ["src/string.rs: From<&str>, From<char>, From<&String>, FromStr"]}
{"id": "C46", "title": "String::split_off splits", "statement": "split_off(at) at a character boundary returns the tail text and leaves the head text.", "quantifier": "every text, every boundary", "why_tests_cant": "A test fixes one history, one element type and one allocator; the claim is about every history, every size and every pattern of allocator failures.", "anchors": ["src/string.rs: split_off", "src/vec.rs: split_off"]}
{"id": "C47", "title": "String comparison is code point order", "statement": "Comparing two Strings agrees with comparing their sequences of Unicode scalar values lexicographically, and equality with equality of those sequences; hashing feeds exactly the UTF-8 bytes of the text and a terminator to the hasher, so equal Strings hash equally.", "quantifier": "every pair of texts", "why_tests_cant": "All pairs.", "anchors": ["src/string.rs: PartialEq, Ord, Hash"]}
{"id": "C48", "title": "Collecting and extending Strings concatenates", "statement": "extend/collect over chars, &str, Strings or boxed strs appends the items' text in order, including the shortcut that reuses the first String's buffer; + and += append.", "quantifier": "every current text, every item sequence, every claimed size hint", "why_tests_cant": "A test fixes one history, one element type and one allocator; the claim is about every history, every size and every pattern of allocator failures.", "anchors": ["src/string.rs: Extend<char>, Extend<&str>, Extend<String>, Extend<Box<str>>, Add"]}
{"id": "C49", "title": "Rc counts are the live handles", "statement": "strong_count is the number of live Rc handles to the value and weak_count the number of live Weak handles, after any history of clone, drop, downgrade, upgrade and weak clone/drop.", "quantifier": "every history over any number of values and handles", "why_tests_cant": "A test fixes one history, one element type and one allocator; the claim is about every history, every size and every pattern of allocator failures.", "anchors": ["src/rc.rs: Rc::clone, Drop for Rc, downgrade, Weak::clone, Drop for Weak, upgrade"]}
{"id": "C50", "title": "Rc destroys the value when the last handle goes", "statement": "When the last Rc handle is dropped the value's destructor runs exactly once; when the last Weak is gone too, the memory is freed.", "quantifier": "every history", "why_tests_cant": "A test fixes one history, one element type and one allocator; the claim is about every history, every size and every pattern of allocator failures.", "anchors": ["src/rc.rs: Drop for Rc, Drop for Weak", "src/marker.rs: MaybeDropped"]}
{"id": "C51", "title": "Weak::upgrade fails after the last Rc is gone", "statement": "upgrade() returns an Rc exactly while at least one Rc handle to the value is alive.", "quantifier": "every history", "why_tests_cant": "A test fixes one history, one element type and one allocator; the claim is about every history, every size and every pattern of allocator failures.", "anchors": ["src/rc.rs: Weak::upgrade, RcBox::is_dealloc"]}
{"id": "C52", "title": "Rc::get_mut is exclusive", "statement": "get_mut returns a mutable reference only if this is the only Rc handle and no Weak handle exists; writing through it is never visible through any other handle.", "quantifier": "every history", "why_tests_cant": "A test fixes one history, one element type and one allocator; the claim is about every history, every size and every pattern of allocator failures.", "anchors": ["src/rc.rs: get_mut, is_single_ref"]}
{"id": "C53", "title": "Rc::make_mut copies on write", "statement": "make_mut gives a mutable reference to a value equal to the current one and writing through it changes no other handle's value; outstanding Weak handles to the old value can no longer be upgraded, and it never panics.", "quantifier": "every history, debug and release builds", "why_tests_cant": "A test fixes one history, one element type and one allocator; the claim is about every history, every size and every pattern of allocator failures.", "anchors": ["src/rc.rs: make_mut, set_zero_strong, Drop for Rc"]}
{"id": "C54", "title": "Rc::try_unwrap moves the value out", "statement": "try_unwrap returns the value exactly when this is the only Rc handle, otherwise returns the handle unchanged; afterwards no handle can reach the moved-out value and the memory is released.", "quantifier": "every history", "why_tests_cant": "A test fixes one history, one element type and one allocator; the claim is about every history, every size and every pattern of allocator failures.", "anchors": ["src/rc.rs: try_unwrap"]}
{"id": "C55", "title": "Arc never uses freed or destroyed data", "statement": "In every interleaving of any number of threads cloning, dropping, reading, downgrading, unwrapping and mutating through Arc handles of one value, no access happens to destroyed, moved-out or freed data, the value is destroyed or moved out at most once and the memory freed at most once.", "quantifier": "every interleaving of atomic steps of any number of threads and handles, including spurious compare-exchange failures", "why_tests_cant": "Schedules cannot be enumerated.", "anchors": ["src/arc.rs: Clone, Drop, drop_slow, try_unwrap, make_mut, get_mut"]}
{"id": "C56", "title": "Arc destroys the value with the last handle", "statement": "Once every Arc handle has been dropped and all calls have finished, the value has been destroyed exactly once; if no Weak was ever created the memory has been freed exactly once.", "quantifier": "every interleaving", "why_tests_cant": "Schedules cannot be enumerated.", "anchors": ["src/arc.rs: Drop, drop_slow"]}
{"id": "C57", "title": "Arc memory is released when the last Weak goes", "statement": "Once all Arc and all Weak handles are gone the allocation is freed.", "quantifier": "every interleaving", "why_tests_cant": "A test fixes one history, one element type and one allocator; the claim is about every history, every size and every pattern of allocator failures.", "anchors": ["src/arc.rs: Weak, drop_slow"]}
{"id": "C58", "title": "Arc::get_mut is exclusive", "statement": "While a mutable reference obtained from get_mut or make_mut is in use, no other Arc handle to that allocation exists and no other call on it is in progress.", "quantifier": "every interleaving of fewer than 2^64 - 8 atomic steps (beyond that the counters can wrap, see C60)", "why_tests_cant": "Schedules cannot be enumerated.", "anchors": ["src/arc.rs: get_mut, is_unique, make_mut"]}
{"id": "C59", "title": "Arc::downgrade terminates", "statement": "A thread calling downgrade that keeps being scheduled, with no spurious failures and while the other threads eventually stop changing the count, returns a Weak handle.", "quantifier": "every schedule", "why_tests_cant": "Non-termination under a particular interleaving.", "anchors": ["src/arc.rs: downgrade, AtomicCounter::sync_lock, try_increment"]}
{"id": "C60", "title": "Arc strong count is the number of handles", "statement": "strong_count returns the number of Arc handles whose drop has not yet taken effect, and the count never wraps: a clone beyond isize::MAX handles panics.", "quantifier": "every interleaving, every number of forgotten handles", "why_tests_cant": "2^63 clones cannot be tested.", "anchors": ["src/arc.rs: Clone, strong_count, MAX_REFCOUNT"]}
{"id": "C61", "title": "Arc::try_unwrap hands out the value once", "statement": "try_unwrap succeeds only for the sole remaining handle; the value it returns is not destroyed by the library, and every competing try_unwrap gets its handle back.", "quantifier": "every interleaving", "why_tests_cant": "Schedules cannot be enumerated.", "anchors": ["src/arc.rs: try_unwrap"]}
{"id": "C62", "title": "Arc weak count is the number of Weak handles", "statement": "weak_count returns the number of live Weak handles.", "quantifier": "every history", "why_tests_cant": "A test fixes one history, one element type and one allocator; the claim is about every history, every size and every pattern of allocator failures.", "anchors": ["src/arc.rs: weak_count, downgrade, Weak"]}
{"id": "C63", "title": "Sharing a Urc across threads is safe", "statement": "In every interleaving of threads that clone, read, envelop/receive, downgrade and drop Urc handles, reads always reach the live value, per-thread bookkeeping memory is freed at most once and never used afterwards.", "quantifier": "every interleaving of any number of threads", "why_tests_cant": "Schedules cannot be enumerated.", "anchors": ["src/urc.rs: Clone, Drop for Urc, envelop, downgrade, Drop for Weak"]}
{"id": "C64", "title": "Urc destroys the value with the last handle", "statement": "When all Urc handles in all threads have been dropped, the value's destructor has run exactly once and the shared block is freed.", "quantifier": "every history", "why_tests_cant": "A test fixes one history, one element type and one allocator; the claim is about every history, every size and every pattern of allocator failures.", "anchors": ["src/urc.rs: Drop for Urc, Drop for Weak"]}
{"id": "C65", "title": "Urc fence counts are exact", "statement": "fence_strong_count / fence_weak_count are the numbers of live Urc / Weak handles of that fence; the shared counter of strong fences equals the number of fences with a live Urc.", "quantifier": "every history of new, clone, downgrade, envelop and drops", "why_tests_cant": "A test fixes one history, one element type and one allocator; the claim is about every history, every size and every pattern of allocator failures.", "anchors": ["src/urc.rs: Fence, Master, is_sole_strong_fence"]}
{"id": "C66", "title": "Urc::try_unwrap is sound", "statement": "try_unwrap succeeds only when this is the only Urc in any thread; if it fails it returns the handle and leaves all counters unchanged; it never touches freed memory.", "quantifier": "every history", "why_tests_cant": "A test fixes one history, one element type and one allocator; the claim is about every history, every size and every pattern of allocator failures.", "anchors": ["src/urc.rs: try_unwrap"]}
{"id": "C67", "title": "Urc::make_mut copies on write", "statement": "make_mut gives a mutable reference to a value equal to the current one without affecting any other Urc and without panicking.", "quantifier": "every history, debug and release builds", "why_tests_cant": "A test fixes one history, one element type and one allocator; the claim is about every history, every size and every pattern of allocator failures.", "anchors": ["src/urc.rs: make_mut"]}
{"id": "C68", "title": "Urc::get_mut is exclusive and repeatable", "statement": "get_mut returns a reference exactly when this is the only handle; a refused get_mut leaves the counters unchanged so a later call succeeds once the other handles are gone.", "quantifier": "every history", "why_tests_cant": "A test fixes one history, one element type and one allocator; the claim is about every history, every size and every pattern of allocator failures.", "anchors": ["src/urc.rs: get_mut, is_unique"]}
{"id": "C69", "title": "Scopes nest", "statement": "Inside spawn(init, f) the current scope is the one returned by init; when f returns, or panics, the scope that was current before is current again, for any nesting depth.", "quantifier": "every nesting of spawns, every scope value, every point at which f panics", "why_tests_cant": "All nestings and panics.", "anchors": ["src/scope.rs: Env::spawn, Env::current"]}
{"id": "C70", "title": "Marker and selector equality are lawful", "statement": "Equality of allocation markers and selectors is an equivalence, equal ones hash equally, and markers (selectors) made for the same type are equal while those with different markers differ.", "quantifier": "all markers and selectors", "why_tests_cant": "All values.", "anchors": ["src/scope.rs: AllocMarker, AllocSelector"]}
{"id": "C71", "title": "SmallVec compacts like Vec, inline or spilled", "statement": "retain, dedup, dedup_by and dedup_by_key on a SmallVec give the same result, leave the same elements and destroy the same elements in the same order as on a Vec with the same contents, whether the elements are inline or on the heap.", "quantifier": "every inline capacity, every pair of histories with equal contents, every closure including panicking ones; for element types of non-zero size (zero: C30, C117, C118)", "why_tests_cant": "Two implementations, all closures and all contents.", "anchors": ["src/small_vec.rs: retain, dedup_by, dedup_by_key", "src/vec.rs: RetainIter, dedup_by"]}
{"id": "C72", "title": "Vec used without emptying shrinks is a list", "statement": "As long as a program never shrinks a Vec to zero capacity (and, if library preconditions count, does not swap_remove), every history returns what a list would return, the vector shows the list, dropping it releases all memory, and every value that came in was handed out or destroyed exactly once.", "quantifier": "every history of such calls, every element type with a size, every allocator behaviour, debug and release builds; for element types of non-zero size (zero: C30, C117, C118), destructors that do not panic (others: C28, C109-C112), a total size within the layout limit (beyond: C05)", "why_tests_cant": "Every history of arbitrary length, every element type with a size and every allocator behaviour; testing only samples them.", "anchors": ["src/vec.rs: all methods", "src/ptr.rs"]}
{"id": "C73", "title": "Vec::swap_remove before the last index", "statement": "swap_remove(i) with i + 1 < len (or of the only element) returns element i and puts the last element in its place; nothing is destroyed, capacity and other memory are unchanged.", "quantifier": "every vector with any history, every such index; for element types of non-zero size (zero: C30, C117, C118)", "why_tests_cant": "Every history of arbitrary length, every element type with a size and every allocator behaviour; testing only samples them.", "anchors": ["src/vec.rs: swap_remove"]}
{"id": "C74", "title": "SmallVec as stack, buffer and array is a list", "statement": "As long as insert, remove, truncate, try_move_to_stack and emptying shrinks are not used, every history of a SmallVec of any inline capacity returns what a list would return, inline, on the heap and across the move; nothing is lost or destroyed twice and all memory is released.", "quantifier": "every inline capacity, every history of such calls, every allocator behaviour; for element types of non-zero size (zero: C30, C117, C118), destructors that do not panic (others: C28, C109-C112), a total size within the layout limit (beyond: C05)", "why_tests_cant": "Every history of arbitrary length, every element type with a size and every allocator behaviour; testing only samples them.", "anchors": ["src/small_vec.rs: SmallVec methods"]}
{"id": "C75", "title": "Spilled SmallVec is a list", "statement": "After move_to_heap a SmallVec stays on the heap until try_move_to_stack, and every history of the other calls, insert, remove and truncate included, returns what a list would return; nothing is lost or destroyed twice and all memory is released.", "quantifier": "every inline capacity, every history of such calls, every allocator behaviour; for element types of non-zero size (zero: C30, C117, C118), destructors that do not panic (others: C28, C109-C112), a total size within the layout limit (beyond: C05)", "why_tests_cant": "Every history of arbitrary length, every element type with a size and every allocator behaviour; testing only samples them.", "anchors": ["src/small_vec.rs: move_to_heap, redirect_fn!, insert, remove, truncate"]}
{"id": "C76", "title": "String edits characters and stays UTF-8", "statement": "As long as the string is not shrunk to nothing, not split and not opened with as_mut_vec (and, if uninitialised integers count, single characters are ASCII), every history returns what editing a sequence of characters would return, panics exactly on wrong indices, leaves the UTF-8 encoding of the sequence, and dropping the string releases all memory.", "quantifier": "every history of such calls, all characters and indices, every allocator behaviour", "why_tests_cant": "Every history of arbitrary length, every element type with a size and every allocator behaviour; testing only samples them.", "anchors": ["src/string.rs: String methods"]}
{"id": "C77", "title": "String::from_utf16 decodes", "statement": "from_utf16 returns the text whose UTF-16 encoding was given, None if there is none, or panics when the allocator refuses; in all cases no memory is lost. (If uninitialised integers count: for ASCII units.)", "quantifier": "all unit sequences, every allocator behaviour", "why_tests_cant": "Every history of arbitrary length, every element type with a size and every allocator behaviour; testing only samples them.", "anchors": ["src/string.rs: from_utf16"]}
{"id": "C78", "title": "String extends by characters", "statement": "Extending a string by an iterator of characters appends the characters produced before a panic of the iterator or a refusal of the allocator, all of them otherwise; the bytes stay the encoding and no other memory changes. (If uninitialised integers count: for ASCII characters.)", "quantifier": "every string with any history, every iterator and size hint", "why_tests_cant": "Every history of arbitrary length, every element type with a size and every allocator behaviour; testing only samples them.", "anchors": ["src/string.rs: Extend<char>"]}
{"id": "C79", "title": "Rc without downgrade is a shared cell", "statement": "As long as no Weak is made with downgrade, every history of Rc calls returns what shared cells would return: reads see the shared value, counts are exact, get_mut and try_unwrap succeed exactly for the only handle, make_mut copies exactly when shared; the only panics are those of Clone and of refused allocations.", "quantifier": "every history of calls without downgrade, every value type, every allocator behaviour", "why_tests_cant": "Every history of arbitrary length, every element type with a size and every allocator behaviour; testing only samples them.", "anchors": ["src/rc.rs: Rc methods"]}
{"id": "C80", "title": "Arc without make_mut is safe", "statement": "In every interleaving of threads that clone, read, downgrade, drop, unwrap, forget and get mutable access, freed memory and gone values are never accessed, the value is destroyed or handed out at most once, the memory is released at most once, and reads and unwraps see the value written last.", "quantifier": "every interleaving of fewer than isize::MAX steps without make_mut", "why_tests_cant": "Every interleaving of any number of threads and calls; testing only samples schedules.", "anchors": ["src/arc.rs: Arc methods"]}
{"id": "C81", "title": "Arc without Weak and make_mut releases everything", "statement": "If no Weak is made, make_mut is not called, nothing is forgotten and no destructor panics, then once all handles are gone the value was destroyed or handed out exactly once and the memory was released exactly once.", "quantifier": "every such interleaving", "why_tests_cant": "Every interleaving of any number of threads and calls; testing only samples schedules.", "anchors": ["src/arc.rs: Drop, try_unwrap"]}
{"id": "C82", "title": "Arc counts without make_mut", "statement": "If nothing is forgotten and make_mut is not called, strong_count is the number of handles whose drop or unwrapping has not taken effect, so with no call in progress exactly the number of handles; weak_count is zero when no Weak was made.", "quantifier": "every such interleaving, every moment a count is read", "why_tests_cant": "Every interleaving of any number of threads and calls; testing only samples schedules.", "anchors": ["src/arc.rs: strong_count, weak_count"]}
{"id": "C83", "title": "Arc::try_unwrap and get_mut without make_mut", "statement": "If nothing is forgotten and make_mut is not called, try_unwrap gives the value written last to the only handle and otherwise hands the Arc back unchanged; with no other call in progress get_mut returns a reference exactly for the only handle when no Weak was ever made.", "quantifier": "every such interleaving", "why_tests_cant": "Every interleaving of any number of threads and calls; testing only samples schedules.", "anchors": ["src/arc.rs: try_unwrap, get_mut"]}
{"id": "C84", "title": "Urc used for sharing only", "statement": "If values are shared with clone, envelop, downgrade, reads, drops and get_mut only and no handle is forgotten or turned into a fence, the counts of a fence are exactly its Urcs and Weaks and a get_mut reference is the only way to the value. If moreover no Weak is made and the allocator does not refuse, the shared counter is the number of fences in use whenever no call is in progress, and when all handles are dropped it is zero and the memory of every fence was released exactly once.", "quantifier": "every interleaving of such calls of any number of threads", "why_tests_cant": "Every interleaving of any number of threads and calls; testing only samples schedules.", "anchors": ["src/urc.rs: Urc methods, Drop"]}
{"id": "C85", "title": "Programs with boxes behave as programs with cells", "statement": "Every sequence of Box calls (creation with any marker, reads, replacement, comparisons, hashing, iterator and hasher forwarding, drops) on values without drop glue does call by call what cells would do: same results, the same value contents, values destroyed exactly when their box is dropped. A refused creation panics, destroys its value and changes nothing else. When all boxes are dropped the heap is as it was; no call panics when the allocator never refuses.", "quantifier": "every sequence of calls on any number of boxes, every value type without drop glue, every allocator behaviour", "why_tests_cant": "Every history of arbitrary length, every element type with a size and every allocator behaviour; testing only samples them.", "anchors": ["src/boxed.rs: Box, PartialEq, PartialOrd, Ord, Hash, Hasher, Iterator, DoubleEndedIterator, ExactSizeIterator"]}
{"id": "C86", "title": "Creating a shared pointer", "statement": "When the allocator answers, Rc::new and Arc::new/try_new take exactly one block of the right layout from the allocator selected for the type, holding counts one and zero and the value; Urc::new/try_new take exactly two, a master (one strong fence, the value) and a fence (one strong reference) pointing to it; Fence::into_urc takes one and moves the fence unchanged. The new pointer shows the value and the counts; no other memory changes.", "quantifier": "every value type and value, every state of memory, every scope", "why_tests_cant": "Every history of arbitrary length, every element type with a size and every allocator behaviour; testing only samples them.", "anchors": ["src/rc.rs: Rc::new", "src/arc.rs: Arc::new, try_new", "src/urc.rs: Urc::new, try_new, Fence::into_urc"]}
{"id": "C87", "title": "A refused creation of a shared pointer", "statement": "When an allocation is refused or there is no environment, new panics and try_new returns an error (panics without environment), the value is destroyed and memory is exactly as before.", "quantifier": "every value type and value, every state of memory, refusal of any of the allocations", "why_tests_cant": "Every history of arbitrary length, every element type with a size and every allocator behaviour; testing only samples them.", "anchors": ["src/rc.rs: Rc::new", "src/arc.rs: Arc::try_new", "src/urc.rs: Urc::try_new"]}
{"id": "C88", "title": "Spare capacity of a vector", "statement": "spare_capacity and spare_capacity_mut of a Vec with any history are exactly the slots between its length and its capacity; writing a slot changes that slot and nothing else, an index outside panics; filling the first slots and calling set_len appends the values without any request to the allocator, after which the vector is an ordinary vector holding them.", "quantifier": "every reachable vector, every value sequence that fits, every later history; for element types of non-zero size (zero: C30, C117, C118)", "why_tests_cant": "Every history of arbitrary length, every element type with a size and every allocator behaviour; testing only samples them.", "anchors": ["src/vec.rs: spare_capacity, spare_capacity_mut, spare_len, is_full, set_len"]}
{"id": "C89", "title": "Spare capacity of a small vector", "statement": "spare_capacity and spare_capacity_mut of a SmallVec, inline or on the heap, are as many slots as capacity is left; writing a slot changes that slot and nothing else; an index outside panics.", "quantifier": "every reachable small vector, every inline capacity; for element types of non-zero size (zero: C30, C117, C118)", "why_tests_cant": "Every history of arbitrary length, every element type with a size and every allocator behaviour; testing only samples them.", "anchors": ["src/small_vec.rs: spare_capacity, spare_capacity_mut, spare_len"]}
{"id": "C90", "title": "Formatted writing into a string", "statement": "write! into a String (write_str, write_char) appends the parts in order and returns Ok; if the formatted value returns an error or panics, or the allocator refuses, the string keeps what was written before and stays UTF-8; no other memory changes.", "quantifier": "every string with any history, every sequence of texts and characters, every failure point, every allocator behaviour", "why_tests_cant": "Every history of arbitrary length, every element type with a size and every allocator behaviour; testing only samples them.", "anchors": ["src/string.rs: fmt::Write for String"]}
{"id": "C91", "title": "Mutable slices of a string", "statement": "Indexing a String mutably with a range that lies on character boundaries gives exactly those characters: upper- or lower-casing the slice changes exactly the ASCII letters in it, in place, and leaves the rest of the text, the capacity and other memory alone. Any other range panics and changes nothing.", "quantifier": "every string with any history, all range forms and bounds", "why_tests_cant": "Every history of arbitrary length, every element type with a size and every allocator behaviour; testing only samples them.", "anchors": ["src/string.rs: IndexMut for String"]}
{"id": "C92", "title": "Arc has no data races", "statement": "With the memory orderings named in the code, and loads that may return old values as far as those orderings allow, every access to the value of an Arc that conflicts with another one (a write, the destructor, moving out, releasing the memory) is ordered with it by happens-before.", "quantifier": "every execution of fewer than 2^64 - 8 steps of any number of threads, every choice of the value read by each load", "why_tests_cant": "Every interleaving of any number of threads and calls; testing only samples schedules.", "anchors": ["src/arc.rs: clone, drop, drop_slow, try_unwrap, get_mut, make_mut, downgrade and the orderings they name"]}
{"id": "C93", "title": "Arc keeps the value alive under weak memory", "statement": "Also when loads may return old values: freed memory and gone values are never accessed, the value is destroyed or moved out at most once, the memory is released at most once; when the last handle is gone the value was destroyed or moved out and the memory is released.", "quantifier": "every execution, every choice of the value read by each load", "why_tests_cant": "Every interleaving of any number of threads and calls; testing only samples schedules.", "anchors": ["src/arc.rs: Drop, drop_slow, try_unwrap, make_mut"]}
{"id": "C94", "title": "The mutable reference of an Arc is exclusive under weak memory", "statement": "Whenever get_mut or make_mut has given out a mutable reference, no other handle and no call in progress exists, the value is there, and every access made so far happens before any use of the reference. If the caller knows the latest counts, get_mut of the only handle without Weaks succeeds.", "quantifier": "every execution, every choice of the value read by each load, also after a refused allocation", "why_tests_cant": "Every interleaving of any number of threads and calls; testing only samples schedules.", "anchors": ["src/arc.rs: get_mut, is_unique, make_mut"]}
{"id": "C95", "title": "Interleavings are executions under weak memory", "statement": "Every interleaving of atomic steps on sequentially consistent memory is an execution under the release/acquire rules, with the same results.", "quantifier": "every interleaving", "why_tests_cant": "Every interleaving of any number of threads and calls; testing only samples schedules.", "anchors": ["src/arc.rs: all methods"]}
{"id": "C96", "title": "Arc without make_mut under weak memory", "statement": "If make_mut is not called there is no data race, no access to freed memory or gone values, no double destruction and no double release; if also nothing is forgotten, no Weak is made and no destructor and no clone panics, then once all handles are gone the value was destroyed or handed out exactly once and the memory was released exactly once.", "quantifier": "every execution without make_mut, every choice of the value read by each load", "why_tests_cant": "Every interleaving of any number of threads and calls; testing only samples schedules.", "anchors": ["src/arc.rs: clone, drop, drop_slow, try_unwrap, get_mut, downgrade"]}
{"id": "C97", "title": "Cloning a string", "statement": "clone of a String gives a string with the same text and memory of its own: the original is unchanged, the two compare equal, dropping either leaves the other intact and gives back exactly its memory; a refused allocation panics and changes nothing.", "quantifier": "every string with any history, every allocator behaviour", "why_tests_cant": "Every history of arbitrary length, every element type with a size and every allocator behaviour; testing only samples them.", "anchors": ["src/string.rs: Clone for String", "src/vec.rs: Clone for Vec"]}
{"id": "C98", "title": "Comparing, hashing and formatting through Rc", "statement": "Comparisons, Hash, Debug and Display of Rc give what they give for the values that dereferencing gives, and change nothing.", "quantifier": "every history of calls, every pair of live handles, every comparison, hash and format function", "why_tests_cant": "Every history of arbitrary length, every element type with a size and every allocator behaviour; testing only samples them.", "anchors": ["src/rc.rs: PartialEq, PartialOrd, Ord, Hash, Debug, Display for Rc"]}
{"id": "C99", "title": "Debug output of Weak", "statement": "Debug of a Weak writes (Weak(v)) with the shared value while an Rc is alive, (Weak deallocated) afterwards and (Weak null) for Weak::new; it never reads a value that is gone.", "quantifier": "every history of calls, every Weak handle", "why_tests_cant": "Every history of arbitrary length, every element type with a size and every allocator behaviour; testing only samples them.", "anchors": ["src/rc.rs: Debug for Weak"]}
{"id": "C100", "title": "Urc has no data races", "statement": "With the memory orderings named in the code, and loads that may return old values as far as those orderings allow, two conflicting accesses to the value or the memory of an Urc by different threads are ordered by happens-before.", "quantifier": "every execution of fewer than 2^64 - 8 steps of any number of threads, every choice of the value read by each load", "why_tests_cant": "Every interleaving of any number of threads and calls; testing only samples schedules.", "anchors": ["src/urc.rs: clone, drop, envelop, try_unwrap, get_mut, make_mut, Deref and the orderings they name"]}
{"id": "C101", "title": "The mutable reference of an Urc is exclusive under weak memory", "statement": "Whenever Urc::get_mut has given out a mutable reference there is no other handle in any thread, and every earlier access to the value, by any thread, happens before every use of the reference.", "quantifier": "every execution, every choice of the value read by each load", "why_tests_cant": "Every interleaving of any number of threads and calls; testing only samples schedules.", "anchors": ["src/urc.rs: get_mut, Drop, envelop"]}
{"id": "C102", "title": "Urc keeps the value alive under weak memory", "statement": "Also when loads may return old values: freed memory and gone values are never accessed, the memory of a fence is released at most once and exactly once when all its handles are gone, the value is what was written last.", "quantifier": "every execution, every choice of the value read by each load", "why_tests_cant": "Every interleaving of any number of threads and calls; testing only samples schedules.", "anchors": ["src/urc.rs: Drop, Deref, clone, downgrade, envelop"]}
{"id": "C103", "title": "Interleavings of Urc calls are executions under weak memory", "statement": "Every interleaving of atomic steps on sequentially consistent memory is an execution under the release/acquire rules with the same steps and results, from the start and from every reachable state.", "quantifier": "every interleaving, every reachable state", "why_tests_cant": "Every interleaving of any number of threads and calls; testing only samples schedules.", "anchors": ["src/urc.rs: all methods"]}
{"id": "C104", "title": "Urc::get_mut of the only handle under weak memory", "statement": "When all other handles are gone and weak_fence is zero, get_mut on the remaining Urc returns a mutable reference, whichever values its loads return.", "quantifier": "every execution, every choice of the value read by each load", "why_tests_cant": "Every interleaving of any number of threads and calls; testing only samples schedules.", "anchors": ["src/urc.rs: get_mut"]}
{"id": "C105", "title": "Moving the value out of an Urc under weak memory", "statement": "When the exchange of try_unwrap lets the value be taken, no other Urc exists and every earlier access to the value happens before the move; the same happens-before holds when make_mut decides to move the value.", "quantifier": "every execution, every choice of the value read by each load", "why_tests_cant": "Every interleaving of any number of threads and calls; testing only samples schedules.", "anchors": ["src/urc.rs: try_unwrap, make_mut"]}
{"id": "C106", "title": "Urc used for sharing under weak memory", "statement": "If values are shared with everything but try_unwrap and make_mut, there is no data race, no access to freed memory or to a gone value, no fence is released twice, a get_mut reference is exclusive, and every read gives the value written last.", "quantifier": "every execution of such calls by any number of threads, every choice of the value read by each load", "why_tests_cant": "Every interleaving of any number of threads and calls; testing only samples schedules.", "anchors": ["src/urc.rs: clone, drop, envelop, downgrade, get_mut, Deref and the orderings they name"]}
{"id": "C107", "title": "Memory of SmallVec and String goes back to the allocator it came from", "statement": "In the allocator log of the whole life of a SmallVec or String, including moves between inline and heap storage and the final drop, every release and resize names a live block, the allocator that served it and its layout, whatever scope is current; when no call is undefined, the blocks live at the end are exactly those live at the start.", "quantifier": "every history, every inline capacity, every way of making the string, every sequence of scope changes between calls, every allocator selection function", "why_tests_cant": "Every history of arbitrary length, every element type with a size and every allocator behaviour; testing only samples them.", "anchors": ["src/small_vec.rs: move_to_heap, try_move_to_stack, shrink_to, grow, Drop for SmallVec", "src/string.rs: all functions", "src/ptr.rs: ScopePtr::alloc, dealloc, realloc_array"]}
{"id": "C108", "title": "Rc::downcast keeps the counts", "statement": "Rc<dyn Any>::downcast turns the handle into one of the other type, or gives it back if the value is of another type, and changes nothing else: the strong count stays the number of Rc handles and the value stays shared.", "quantifier": "every history of calls, every handle, every type test", "why_tests_cant": "Every history of arbitrary length, every element type with a size and every allocator behaviour; testing only samples them.", "anchors": ["src/rc.rs: Rc<dyn Any>::downcast, Drop for Rc"]}
{"id": "C109", "title": "Vec of elements whose destructors panic", "statement": "Whatever the destructors of the elements do, every call of a history, other than the calls that C06 shows to be undefined, changes the contents and destroys values exactly as the list specification says, and the vector stays usable. One panicking destructor turns the return of the call into a panic; a second one, or one while the call is already unwinding, ends the process, and nothing else does. The only exception is clear, which stops at the first panicking destructor and still shows all elements. As long as every clear returned, every value that came in was handed out, destroyed once or is still inside, and dropping the vector destroys its elements up to the first panicking destructor.", "quantifier": "every finite history, every set of elements whose destructor panics, every allocator behaviour; for element types of non-zero size (zero: C30, C117, C118), a total size within the layout limit (beyond: C05)", "why_tests_cant": "Every history of arbitrary length, every element type with a size and every allocator behaviour; testing only samples them.", "anchors": ["src/vec.rs: all methods, Drop for Vec", "src/ptr.rs"]}
{"id": "C110", "title": "SmallVec of elements whose destructors panic", "statement": "Whatever the destructors of the elements do, every call of a history on a SmallVec, other than the calls that C32 shows to be undefined, changes the contents and destroys values exactly as the list specification of SmallVec says, inline and on the heap, and the vector stays usable. One panicking destructor turns the return of the call into a panic; a second one, or one while the call is already unwinding, ends the process, and nothing else does. Only clear stops at the first panicking destructor: inline the vector is then empty and the later elements are lost, on the heap it still shows all elements. Apart from a panicking clear on the heap, every value that came in was handed out, destroyed once, lost by an inline truncate or clear, or is still inside; dropping the vector destroys its elements up to the first panicking destructor.", "quantifier": "every inline capacity, every finite history, every set of elements whose destructor panics, every allocator behaviour; for element types of non-zero size (zero: C30, C117, C118), a total size within the layout limit (beyond: C05)", "why_tests_cant": "Every history of arbitrary length, every element type with a size and every allocator behaviour; testing only samples them.", "anchors": ["src/small_vec.rs: all methods, Drop for StackVec", "src/vec.rs"]}
{"id": "C111", "title": "Panicking destructors in retain, dedup and iterators", "statement": "Whatever the callback and the destructors do, retain, dedup_by and dedup_by_key (without writes to the elements) of Vec and SmallVec end at the first panic: at most one panicking destructor runs, it is the last one run, and its panic is that of the call. What the vector then shows and what was destroyed are different elements of the old contents, so that dropping the vector destroys no element twice, and gives the memory back if no destructor panics in it. An iterator that has taken over a Vec hands out the elements as a double-ended queue, and dropping it destroys the rest up to the first panicking destructor and gives the memory back even then.", "quantifier": "every callback with state, every set of elements whose destructor panics, every vector reached by a history, every inline capacity, every sequence of next and next_back that does not exhaust the iterator from behind (see C20); for element types of non-zero size (zero: C30, C117, C118)", "why_tests_cant": "Every history of arbitrary length, every element type with a size and every allocator behaviour; testing only samples them.", "anchors": ["src/vec.rs: RetainIter, Vecx::retain, dedup_by, dedup_by_key, IntoIter, Drop for IntoIter", "src/small_vec.rs: retain, dedup_by, dedup_by_key"]}
{"id": "C112", "title": "Panicking destructors in conversions", "statement": "Whatever the destructors do, building a Vec from an array, from an iterator or by cloning, or a SmallVec from an iterator, from a slice, by cloning or from an array longer than the inline capacity, turning a SmallVec into a Vec, or a Vec or SmallVec with elements into a boxed slice, either succeeds with exactly the values given and destroys nothing, or fails because the iterator or clone panicked or the allocator refused. Then the values taken so far, and the one in hand if the allocator refused, are destroyed once and no memory stays allocated; if one of their destructors panics during this unwinding, and only then, the process ends.", "quantifier": "every iterator, with panics at any position and any size hint, every slice, every clone function, every allocator behaviour, every inline capacity; for element types of non-zero size (zero: C30, C117, C118), a total size within the layout limit (beyond: C05)", "why_tests_cant": "Every history of arbitrary length, every element type with a size and every allocator behaviour; testing only samples them.", "anchors": ["src/vec.rs: From<[T; N]>, FromIterator, Clone for Vec, into_boxed_slice", "src/small_vec.rs: FromIterator, From<&[T]>, From<[T; L]>, Clone for SmallVec, into_vec, into_boxed_slice"]}
{"id": "C113", "title": "The marker of a SmallVec", "statement": "A SmallVec made with a marker keeps it for life, inline and on the heap, whatever capacity it starts with, and every selection of an allocator it makes, at its first allocation and at every later move to the heap, uses this marker. A SmallVec made from a Vec does so with the marker of the Vec, and a Vec made from a SmallVec has the marker of the SmallVec. (Calls that build a second vector, as append of a vector just collected, select for that vector without a marker.)", "quantifier": "every marker, inline capacity and starting capacity, every history of calls, append of any vector, resize and resize_with; for element types of non-zero size (zero: C30, C117, C118)", "why_tests_cant": "Every history of arbitrary length, every element type with a size and every allocator behaviour; testing only samples them.", "anchors": ["src/small_vec.rs: with_marker, try_with_capacity_and_marker, try_move_to_heap_and_reserve_exact, try_move_to_stack, append, resize, resize_with, into_vec, From<Vec<T>>"]}
{"id": "C114", "title": "The marker of a String", "statement": "A String made with a marker keeps it, and every selection of an allocator it makes uses this marker.", "quantifier": "every marker and starting capacity, every history of calls that build no second string", "why_tests_cant": "Every history of arbitrary length, every element type with a size and every allocator behaviour; testing only samples them.", "anchors": ["src/string.rs: with_marker, with_capacity_and_marker, try_with_capacity_and_marker, all methods", "src/vec.rs: try_with_capacity_and_marker"]}
{"id": "C115", "title": "SmallVec::drain removes a range", "statement": "drain of a SmallVec, with any kind of range whose bounds a <= b lie within the length, yields exactly the elements of the range in order and, when dropped, leaves the vector with the remaining elements; an invalid range panics and leaves the vector intact.", "quantifier": "every inline capacity, inline and heap storage, every contents, every range; for element types of non-zero size (zero: C30, C117, C118)", "why_tests_cant": "Every history of arbitrary length, every element type with a size and every allocator behaviour; testing only samples them.", "anchors": ["src/small_vec.rs: drain, Vecx for SmallVec, set_len", "src/vec.rs: DrainInner::new, DrainInner::drop, next, next_back"]}
{"id": "C116", "title": "What formatting a container shows", "statement": "Debug of a Vec or SmallVec lists what its elements write, in order, between brackets and separated by commas; Display of a String writes its text; Debug of a String writes the literal of its text, quoted and escaped as str does.", "quantifier": "every contents reached by a history, every element formatting, inline and heap storage, every table of printable characters; for element types of non-zero size (zero: C30, C117, C118)", "why_tests_cant": "Every history of arbitrary length, every element type with a size and every allocator behaviour; testing only samples them.", "anchors": ["src/vec.rs: Debug for Vec", "src/small_vec.rs: Debug for SmallVec", "src/string.rs: Display for String, Debug for String"]}
{"id": "C117", "title": "SmallVec of zero-sized elements", "statement": "A SmallVec of a zero-sized type gives the same results as any other SmallVec for every history of calls, never calls the allocator, and dropping it destroys exactly the elements it holds.", "quantifier": "every inline capacity, every history on a zero-sized element type with one value; for destructors that do not panic", "why_tests_cant": "Every history of arbitrary length, every element type with a size and every allocator behaviour; testing only samples them.", "anchors": ["src/small_vec.rs: try_reserve, try_reserve_exact, try_move_to_heap_and_reserve_exact, push, all inline methods, Drop for StackVec", "src/vec.rs: capacity, Drop for Vec"]}
{"id": "C118", "title": "Compaction, iteration, conversion and destruction of Vecs of zero-sized elements", "statement": "On a Vec of a zero-sized type, retain keeps exactly what the predicate accepts and dedup the first of each run, the rest being destroyed; the consuming iterator yields as many elements as the vector holds, from either end; append, construction from an array and into_boxed_slice keep every element; and dropping the vector or the iterator after any calls destroys what is left and nothing else.", "quantifier": "every history on a zero-sized element type with one value, every predicate with state, every comparison, every sequence of calls from both ends; for destructors that do not panic", "why_tests_cant": "Every history of arbitrary length, every element type with a size and every allocator behaviour; testing only samples them.", "anchors": ["src/vec.rs: RetainIter::retain, dedup_by, new, keep_next, discard_next, IntoIter: next, next_back, Drop; append, From<[T; N]>, into_boxed_slice, capacity, Drop for Vec"]}
{"id": "C119", "title": "dedup_by and dedup_by_key keep what their closures write", "statement": "dedup_by and dedup_by_key pass the elements by mutable reference. What the closure writes to an element it keeps is what the vector holds afterwards: each kept element has the value after the last call that saw it, each destroyed one the value the closure left.", "quantifier": "every contents reached by a history, every closure with state, whatever it writes, panicking closures and destructors included (dedup_by_key: those that do not panic; others: C29, C111); for element types of non-zero size (zero: C30, C117, C118)", "why_tests_cant": "Every history of arbitrary length, every element type with a size and every allocator behaviour; testing only samples them.", "anchors": ["src/vec.rs: RetainIter::dedup_by, dedup_by_key, keep_next, discard_next, RetainIter::new"]}
