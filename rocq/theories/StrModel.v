(** Model of src/string.rs.  A [String] (7-9) is its vector of bytes. *)
From Verif Require Export UtfModel VecModel.

(** The element type [u8]. *)
Definition u8 : Elem N :=
  {| t_size := 1; t_align := 1; t_name := 8; t_needs_drop := false;
     t_drop_panics := fun _ => false; t_clone := Some; t_zst := 0; t_align_pos := eq_refl |}.

Section str_model.
  Context {EN : Env}.
  Local Existing Instance u8.
  Notation W := (world N).
  Notation MS := (M (vec * W)).

  (** src/string.rs 12-56, 309-314: the constructors are those of [Vec<u8>]. *)
  Definition str_new : M W vec := vec_new.
  (** src/string.rs 21-25: [with_capacity]. *)
  Definition str_with_capacity (c : N) : M W vec := vec_with_capacity c.

  (** src/string.rs 104, 114, 326-333: the bytes, as seen by every [&str] method. *)
  Definition str_bytes : MS (list N) := v <- get_fst; on_snd (vec_as_slice v).

  (** A decoded character; bytes that are not UTF-8 are undefined behaviour for [str] methods. *)
  Definition decoded_m {S} (d : decoded) : M S (option N) :=
    match d with DEnd => ret None | DChar c => ret (Some c) | DBad => undef Precond end.

  (** src/string.rs 660-664: [uninit_bits] makes integers out of uninitialised memory, which the
      language forbids although nothing reads them before they are overwritten. *)
  Definition uninit_bits : MS unit := assume false UninitRead.

  (** src/string.rs 124-131: [push]. *)
  Definition str_push (c : N) : MS unit :=
    if len_utf8 c =? 1 then vec_push c
    else uninit_bits ;; vec_extend_from_slice (encode_utf8 c).

  (** src/string.rs 134-139: [pop]. *)
  Definition str_pop : MS (option N) :=
    bs <- str_bytes;
    o <- decoded_m (next_code_point_reverse (rev bs));
    match o with
    | None => ret None
    | Some c =>
        n <- usub (llen bs) (len_utf8 c);
        vec_set_len n ;;
        ret (Some c)
    end.

  (** src/string.rs 142-144: [push_str]. *)
  Definition str_push_str (s : list N) : MS unit := vec_extend_from_slice s.
  (** src/string.rs 147-149: [clear]. *)
  Definition str_clear : MS unit := vec_clear.

  (** [&self[lo..hi]] (src/string.rs 533-586): core's checks for [str] ranges. *)
  Definition str_range (bs : list N) (lo hi : bound) : MS (list N) :=
    start <- match lo with
             | Unbounded => ret 0 | Included n => ret n
             | Excluded n => if n =? usize_max then throw PIndex else ret (n + 1)
             end;
    end_ <- match hi with
            | Unbounded => ret (llen bs) | Excluded n => ret n
            | Included n => if n =? usize_max then throw PIndex else ret (n + 1)
            end;
    if (start <=? end_) && is_char_boundary bs start && is_char_boundary bs end_
    then ret (take (N.to_nat (end_ - start)) (drop (N.to_nat start) bs))
    else throw PIndex.
  (** src/string.rs 533-586: [Index] for the six kinds of ranges. *)
  Definition str_index (lo hi : bound) : MS (list N) := bs <- str_bytes; str_range bs lo hi.

  (** src/string.rs 152-169: [remove]. *)
  Definition str_remove (idx : N) : MS N :=
    bs <- str_bytes;
    tail <- str_range bs (Included idx) Unbounded;
    o <- decoded_m (next_code_point tail);
    match o with
    | None => throw PAssert
    | Some c =>
        next <- uadd idx (len_utf8 c);
        n <- usub (llen bs) next;
        v <- get_fst;
        on_snd (copy_at (vdata v) next (vdata v) idx n) ;;
        d <- usub next idx;
        n' <- usub (llen bs) d;
        vec_set_len n' ;;
        ret c
    end.

  (** src/string.rs 187-199: [insert_bytes]. *)
  Definition str_insert_bytes (idx : N) (bytes : list N) : MS unit :=
    v <- get_fst;
    let len := v_len v in
    let amt := llen bytes in
    vec_reserve amt ;;
    v <- get_fst;
    to <- uadd idx amt;
    c <- usub len idx;
    on_snd (copy_at (vdata v) idx (vdata v) to c) ;;
    on_snd (if amt =? 0 then ret tt else copy_in (vdata v) idx (Some <$> bytes)) ;;
    n <- uadd len amt;
    vec_set_len n.
  (** src/string.rs 172-178: [insert]. *)
  Definition str_insert (idx : N) (c : N) : MS unit :=
    bs <- str_bytes;
    assert (is_char_boundary bs idx) ;;
    uninit_bits ;;
    str_insert_bytes idx (encode_utf8 c).
  (** src/string.rs 181-185: [insert_str]. *)
  Definition str_insert_str (idx : N) (s : list N) : MS unit :=
    bs <- str_bytes;
    assert (is_char_boundary bs idx) ;;
    str_insert_bytes idx s.

  (** src/string.rs 202-207: [truncate]. *)
  Definition str_truncate (n : N) : MS unit :=
    bs <- str_bytes;
    if n <? llen bs then assert (is_char_boundary bs n) ;; vec_truncate n else ret tt.

  (** src/string.rs 211-215: [split_off]. *)
  Definition str_split_off (at_ : N) : MS vec :=
    bs <- str_bytes;
    assert (is_char_boundary bs at_) ;;
    vec_split_off at_.

  (** src/string.rs 226-231: [from_utf8]; on error the bytes are dropped. *)
  Definition str_from_utf8 (v : vec) : M W (option vec) :=
    bs <- vec_as_slice v;
    if utf8_valid bs then ret (Some v) else vec_drop_val v ;; ret None.

  (** src/string.rs 237-243: the loop of [from_utf16]. *)
  Fixpoint push_decoded (l : list (option N)) : MS bool :=
    match l with
    | [] => ret true
    | Some c :: l => str_push c ;; push_decoded l
    | None :: _ => ret false
    end.
  (** src/string.rs 233-245: [from_utf16]; on error the string built so far is dropped. *)
  Definition str_from_utf16 (us : list N) : M W (option vec) :=
    v <- str_with_capacity (llen us);
    r <- with_local v (push_decoded (decode_utf16 us)) vec_drop;
    if fst r then ret (Some (snd r)) else vec_drop_val (snd r) ;; ret None.

  (** src/string.rs 258-264: [SetLenOnDrop::drop] in [retain]. *)
  Definition set_len_on_drop (idx del : N) : MS unit :=
    n <- usub idx del;
    v <- get_fst;
    debug_assert (n <=? v_len v) ;;
    vec_set_len n.
  (** src/string.rs 273-299: the loop of [retain].  Every iteration advances [idx], so [fuel] is
      never exhausted when it starts above the number of bytes; exhaustion is reported as undefined. *)
  Fixpoint str_retain_loop {St} (f : St -> N -> St * option bool) (st : St) (len idx del : N)
    (fuel : nat) : MS St :=
    match fuel with
    | O => undef Precond
    | S fuel =>
        if idx <? len then
          v <- get_fst;
          tail <- on_snd (read_list (vdata v) idx (N.to_nat (len - idx)));
          o <- decoded_m (next_code_point tail);
          match o with
          | None => undef Precond
          | Some c =>
              let ch_len := len_utf8 c in
              let '(st, r) := f st c in
              match r with
              | None => on_unwind (throw PUser) (set_len_on_drop idx del)
              | Some keep =>
                  del <- on_unwind
                    (if negb keep then uadd del ch_len
                     else if 0 <? del then
                       to <- usub idx del;
                       on_snd (copy_in (vdata v) to (Some <$> encode_utf8 c)) ;; ret del
                     else ret del) (set_len_on_drop idx del);
                  idx <- on_unwind (uadd idx ch_len) (set_len_on_drop idx del);
                  str_retain_loop f st len idx del fuel
              end
          end
        else set_len_on_drop idx del ;; ret st
    end.
  (** src/string.rs 248-303: [retain]. *)
  Definition str_retain {St} (f : St -> N -> St * option bool) (st : St) : MS St :=
    v <- get_fst;
    str_retain_loop f st (v_len v) 0 0 (S (N.to_nat (v_len v))).

  (** [make_ascii_uppercase]/[make_ascii_lowercase] through [as_mut_str] (src/string.rs 119-121,
      335-340). *)
  Definition str_map_bytes (g : N -> N) : MS unit :=
    v <- get_fst;
    bs <- str_bytes;
    on_snd (if llen bs =? 0 then ret tt else copy_in (vdata v) 0 (Some <$> (g <$> bs))).

  (** src/string.rs 421-426, 362-368, 428-432: [From<&str>], [FromStr], [From<&String>]. *)
  Definition str_from_str (s : list N) : M W vec := vec_from_slice s.
  (** src/string.rs 428-432: [From<&String>]. *)
  Definition str_from_string (v : vec) : M W vec := bs <- vec_as_slice v; vec_from_slice bs.
  (** src/string.rs 412-419: [From<char>]. *)
  Definition str_from_char (c : N) : M W vec :=
    assume false UninitRead ;; vec_from_slice (encode_utf8 c).
  (** src/string.rs 434-438 with src/vec.rs 1042-1051: [From<Box<str>>]. *)
  Definition str_from_box (b : sptr) : vec := vec_from_box b.
  (** src/string.rs 370-376: [Clone]. *)
  Definition str_clone (v : vec) : M W vec := vec_clone v.

  (** src/string.rs 378-396: comparisons are those of the byte vectors. *)
  Definition str_eq (v1 v2 : vec) : M W bool := vec_eq N.eqb v1 v2.
  (** src/string.rs 386-396: [PartialOrd], [Ord]. *)
  Definition str_cmp (v1 v2 : vec) : M W comparison := vec_cmp N.compare v1 v2.
  (** src/string.rs 356-360: [Hash] through [str]: the bytes, then the byte 255. *)
  Definition str_hash {H} (hb : H -> N -> H) (h : H) (v : vec) : M W H :=
    bs <- vec_as_slice v; ret (hb (fold_left hb bs h) 255).

  (** An iterator over [char] (or [&char]) is the list of what its [next] calls do. *)
  Fixpoint str_push_chars (it : list (option N)) : MS unit :=
    match it with
    | [] => ret tt
    | Some c :: it => str_push c ;; str_push_chars it
    | None :: _ => throw PUser
    end.
  (** src/string.rs 448-456, 482-490: [Extend<char>], [Extend<&char>]. *)
  Definition str_extend_chars (it : list (option N)) (hint : N) : MS unit :=
    vec_reserve hint ;; str_push_chars it.
  (** src/string.rs 466-473: [Extend<&str>]; items are given by their bytes. *)
  Fixpoint str_extend_strs (it : list (option (list N))) : MS unit :=
    match it with
    | [] => ret tt
    | Some s :: it => str_push_str s ;; str_extend_strs it
    | None :: _ => throw PUser
    end.

  (** src/string.rs 511-514: the loop of [Extend<String>].  [next i] is the call of [next] that
      yields the item [i]; [drop_items] drops the iterator with the items it still holds. *)
  Fixpoint push_items {I} (next : I -> M W vec) (drop_items : list I -> M W unit) (it : list I)
    : MS unit :=
    match it with
    | [] => ret tt
    | i :: it =>
        s <- on_unwind (on_snd (next i)) (on_snd (drop_items it));
        on_unwind (bs <- on_snd (vec_as_slice s); str_push_str bs)
                  (on_snd (vec_drop_val s) ;; on_snd (drop_items it)) ;;
        on_unwind (on_snd (vec_drop_val s)) (on_snd (drop_items it)) ;;
        push_items next drop_items it
    end.
  (** src/string.rs 501-516: [Extend<String>].  Assigning [self.vec] drops the old vector. *)
  Definition str_extend_items {I} (next : I -> M W vec) (drop_items : list I -> M W unit)
    (it : list I) : MS unit :=
    v <- get_fst;
    if vcap v =? 0 then
      match it with
      | [] => ret tt
      | i :: it =>
          s <- on_unwind (on_snd (next i)) (on_snd (drop_items it));
          on_snd (vec_drop_val v) ;;
          put_fst s ;;
          push_items next drop_items it
      end
    else push_items next drop_items it.

  (** Dropping the strings left in the iterator of src/string.rs 501-516. *)
  Fixpoint drop_strings (l : list vec) : M W unit :=
    match l with [] => ret tt | v :: l => vec_drop_val v ;; drop_strings l end.
  (** Dropping the boxes left in the iterator of src/string.rs 526-531. *)
  Fixpoint drop_boxes (l : list sptr) : M W unit :=
    match l with [] => ret tt | b :: l => box_drop b ;; drop_boxes l end.
  (** Items that exist already: [Vec<String>::into_iter] and the like. *)
  Definition str_extend_strings (l : list vec) : MS unit :=
    str_extend_items (fun s => ret s) drop_strings l.
  (** src/string.rs 526-531: [Extend<Box<str>>] converts each box and extends. *)
  Definition str_extend_boxes (l : list sptr) : MS unit :=
    str_extend_items (fun b => ret (str_from_box b)) drop_boxes l.
  (** Items made on demand: [iter.map(|t| { let mut s = String::new(); s.push_str(t); s })]. *)
  Definition str_build (s : list N) : M W vec :=
    v <- str_new; r <- with_local v (str_push_str s) vec_drop; ret (snd r).
  (** src/string.rs 501-516 for strings the iterator builds when asked for the next one. *)
  Definition str_extend_built (l : list (list N)) : MS unit :=
    str_extend_items str_build (fun _ => ret tt) l.

  (** src/string.rs 440-446, 458-464, 474-480, 492-498, 518-524: [FromIterator]. *)
  Definition str_collect (fill : MS unit) : M W vec :=
    v <- str_new; r <- with_local v fill vec_drop; ret (snd r).

  (** src/string.rs 629-637, 639-644: [+] takes the string by value, [+=] by reference; [fmt::Write]
      646-658 is [push_str] and [push]. *)
  Definition str_add (v : vec) (s : list N) : M W vec :=
    r <- with_local v (str_push_str s) vec_drop; ret (snd r).
End str_model.
