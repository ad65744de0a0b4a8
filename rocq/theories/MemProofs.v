(** Symbolic execution lemmas for the monad and the memory operations. *)
From Verif Require Export Mem.
From Coq Require Import ZifyBool ZifyNat ZifyN.

(** ** Monad *)
Section monad.
  Context {S A B C : Type}.
  Implicit Types (m : M S A) (k : A -> M S B).
  Lemma bind_Ret m k s a s' : m s = (Ret a, s') -> bind m k s = k a s'.
  Proof. intros E. unfold bind. by rewrite E. Qed.
  Lemma bind_Panic m k s p s' : m s = (Panic p, s') -> bind m k s = (Panic p, s').
  Proof. intros E. unfold bind. by rewrite E. Qed.
  Lemma bind_UB m k s u s' : m s = (UB u, s') -> bind m k s = (UB u, s').
  Proof. intros E. unfold bind. by rewrite E. Qed.
  Lemma bind_Abort m k s s' : m s = (Abort, s') -> bind m k s = (Abort, s').
  Proof. intros E. unfold bind. by rewrite E. Qed.
  Lemma bind_assoc m k (l : B -> M S C) s :
    bind (bind m k) l s = bind m (fun a => bind (k a) l) s.
  Proof. unfold bind. destruct (m s) as [[] s']; reflexivity. Qed.
  Lemma bind_ret (a : A) k s : bind (ret a) k s = k a s.
  Proof. reflexivity. Qed.
  Lemma bind_throw p k s : bind (throw p) k s = (Panic p, s).
  Proof. reflexivity. Qed.
  Lemma bind_undef u k s : bind (undef u) k s = (UB u, s).
  Proof. reflexivity. Qed.
  Lemma on_unwind_Ret m c s a s' : m s = (Ret a, s') -> on_unwind m c s = (Ret a, s').
  Proof. intros E. unfold on_unwind. by rewrite E. Qed.
  Lemma on_unwind_UB m c s a s' : m s = (UB a, s') -> on_unwind m c s = (UB a, s').
  Proof. intros E. unfold on_unwind. by rewrite E. Qed.
  Lemma on_unwind_Panic m c s p s' s'' :
    m s = (Panic p, s') -> c s' = (Ret tt, s'') -> on_unwind m c s = (Panic p, s'').
  Proof. intros E E'. unfold on_unwind. by rewrite E, E'. Qed.
  Lemma on_unwind_Panic_Panic m c s p q s' s'' :
    m s = (Panic p, s') -> c s' = (Panic q, s'') -> on_unwind m c s = (Abort, s'').
  Proof. intros E E'. unfold on_unwind. by rewrite E, E'. Qed.
End monad.

Section monad2.
  Context {V W A B : Type}.
  Lemma bind_get_fst (k : V -> M (V * W) B) v w : bind get_fst k (v, w) = k v (v, w).
  Proof. reflexivity. Qed.
  Lemma bind_put_fst (k : unit -> M (V * W) B) v v' w : bind (put_fst v') k (v, w) = k tt (v', w).
  Proof. reflexivity. Qed.
  Lemma on_snd_Ret (m : M W A) (v : V) w r w' : m w = (r, w') -> on_snd m (v, w) = (r, (v, w')).
  Proof. intros E. unfold on_snd. simpl. by rewrite E. Qed.
  Lemma bind_on_snd_Ret (m : M W A) (k : A -> M (V * W) B) v w a w' :
    m w = (Ret a, w') -> bind (on_snd m) k (v, w) = k a (v, w').
  Proof. intros E. unfold bind, on_snd. simpl. by rewrite E. Qed.
End monad2.

Section arith.
  Context `{!Profile} {S A : Type}.
  Lemma bind_uadd a b (k : N -> M S A) s :
    a + b <= usize_max -> bind (uadd a b) k s = k (a + b) s.
  Proof. intros. unfold uadd. by rewrite (proj2 (N.leb_le _ _)). Qed.
  Lemma bind_usub a b (k : N -> M S A) s :
    b <= a -> bind (usub a b) k s = k (a - b) s.
  Proof. intros. unfold usub. by rewrite (proj2 (N.leb_le _ _)). Qed.
  Lemma bind_umul a b (k : N -> M S A) s :
    a * b <= usize_max -> bind (umul a b) k s = k (a * b) s.
  Proof. intros. unfold umul. by rewrite (proj2 (N.leb_le _ _)). Qed.
  Lemma bind_debug_assert c (k : unit -> M S A) s :
    c = true -> bind (debug_assert c) k s = k tt s.
  Proof. intros ->. unfold debug_assert. by destruct e_checks. Qed.
  Lemma bind_assert c (k : unit -> M S A) s : c = true -> bind (assert c) k s = k tt s.
  Proof. by intros ->. Qed.
  Lemma bind_assert_false c (k : unit -> M S A) s :
    c = false -> bind (assert c) k s = (Panic PAssert, s).
  Proof. by intros ->. Qed.
  Lemma bind_assume c u (k : unit -> M S A) s : c = true -> bind (assume c u) k s = k tt s.
  Proof. intros ->. unfold assume. rewrite andb_false_r. reflexivity. Qed.
End arith.

(** ** Lists *)
Lemma slot_of_Some {T} (s : list (option T)) i :
  (i < llen s) -> slot_of s i = s !! N.to_nat i.
Proof. intros. unfold slot_of. by rewrite (proj2 (N.ltb_lt _ _)). Qed.

(** ** Heap *)
Definition delete_ptr {T} (p : ptr) (h : gmap N (block T)) : gmap N (block T) :=
  match p with Dangling => h | Blk b => delete b h end.

Definition fresh_ids {T} (w : world T) : Prop := forall b, next_id w <= b -> heap w !! b = None.

Lemma delete_ptr_insert {T} b (x : block T) h : delete_ptr (Blk b) (<[b := x]> h) = delete b h.
Proof. simpl. apply delete_insert_delete. Qed.

Section mem.
  Context `{!Env} {T : Type} `{!Elem T}.
  Notation W := (world T).
  Implicit Types (w : W) (p : ptr) (s : list (option T)).

  (** [slots_at w p s]: pointer [p] addresses storage with slots [s]. *)
  Definition slots_at (w : W) (p : ptr) (s : list (option T)) : Prop :=
    match p with
    | Dangling => False
    | Blk b => exists blk, heap w !! b = Some blk /\ b_slots blk = s
    end.

  Lemma get_slots_at w p s : slots_at w p s -> get_slots p w = (Ret s, w).
  Proof. destruct p; [done|]. intros (blk & Hb & <-). simpl. by rewrite Hb. Qed.

  Definition set_slots (p : ptr) (s : list (option T)) (w : W) : W :=
    match p with
    | Dangling => w
    | Blk b => match heap w !! b with
               | None => w
               | Some blk => set_heap (<[b := Block (b_alloc blk) (b_layout blk) s]> (heap w)) w
               end
    end.

  Lemma put_slots_at w p s s' : slots_at w p s -> put_slots p s' w = (Ret tt, set_slots p s' w).
  Proof. destruct p; [done|]. intros (blk & Hb & <-). simpl. by rewrite Hb. Qed.

  Lemma slots_at_set w p s s' : slots_at w p s -> slots_at (set_slots p s' w) p s'.
  Proof.
    destruct p; [done|]. intros (blk & Hb & <-). simpl. rewrite Hb. simpl.
    rewrite lookup_insert. eauto.
  Qed.

  Lemma set_slots_same w p s : slots_at w p s -> set_slots p s w = w.
  Proof.
    destruct p; [done|]. intros ([] & Hb & <-). simpl in *. rewrite Hb. simpl.
    unfold set_heap. rewrite insert_id by done. by destruct w.
  Qed.

  Lemma set_slots_twice w p s s' : set_slots p s' (set_slots p s w) = set_slots p s' w.
  Proof.
    destruct p; [done|]. simpl. destruct (heap w !! b) as [blk|] eqn:Hb; simpl.
    - rewrite lookup_insert. simpl. unfold set_heap. simpl. by rewrite insert_insert.
    - by rewrite Hb.
  Qed.

  Lemma read_at_slots w p s i x :
    0 < t_size -> slots_at w p s -> s !! N.to_nat i = Some (Some x) ->
    read_at p i w = (Ret x, w).
  Proof.
    intros Hz Hs Hi. unfold read_at. destruct (N.eqb_spec t_size 0); [lia|].
    erewrite bind_Ret by (by apply get_slots_at).
    rewrite slot_of_Some by (apply lookup_lt_Some in Hi; lia). by rewrite Hi.
  Qed.

  Lemma write_at_slots w p s i x :
    0 < t_size -> slots_at w p s -> i < llen s ->
    write_at p i x w = (Ret tt, set_slots p (<[N.to_nat i := Some x]> s) w).
  Proof.
    intros Hz Hs Hi. unfold write_at. destruct (N.eqb_spec t_size 0); [lia|].
    erewrite bind_Ret by (by apply get_slots_at).
    rewrite (proj2 (N.ltb_lt _ _)) by done. by eapply put_slots_at.
  Qed.

  Lemma copy_out_slots w p s i n :
    slots_at w p s -> i + n <= llen s ->
    copy_out p i n w = (Ret (take (N.to_nat n) (drop (N.to_nat i) s)), w).
  Proof.
    intros Hs Hi. unfold copy_out. erewrite bind_Ret by (by apply get_slots_at).
    by rewrite (proj2 (N.leb_le _ _)).
  Qed.

  Lemma copy_in_slots w p s j l :
    slots_at w p s -> j + llen l <= llen s ->
    copy_in p j l w =
    (Ret tt, set_slots p (take (N.to_nat j) s ++ l ++ drop (N.to_nat j + length l) s) w).
  Proof.
    intros Hs Hi. unfold copy_in. erewrite bind_Ret by (by apply get_slots_at).
    rewrite (proj2 (N.leb_le _ _)) by done. by eapply put_slots_at.
  Qed.

  (** Copies within one block and between two blocks. *)
  Definition copied (s : list (option T)) (i : N) (d : list (option T)) (j n : N) :=
    take (N.to_nat j) d ++ take (N.to_nat n) (drop (N.to_nat i) s)
      ++ drop (N.to_nat j + N.to_nat n) d.

  Lemma copied_0 s i j : copied s i s j 0 = s.
  Proof. unfold copied. simpl. rewrite Nat.add_0_r. apply take_drop. Qed.

  Lemma copy_at_slots w p s i q d j n :
    0 < t_size -> slots_at w p s -> slots_at w q d ->
    i + n <= llen s -> j + n <= llen d ->
    copy_at p i q j n w = (Ret tt, set_slots q (copied s i d j n) w).
  Proof.
    intros Hz Hs Hd Hi Hj. unfold copy_at.
    destruct (N.eqb_spec t_size 0); [lia|]. destruct (N.eqb_spec n 0) as [->|]; simpl.
    - unfold copied. simpl. rewrite Nat.add_0_r, take_drop.
      by rewrite set_slots_same.
    - erewrite bind_Ret by (by apply copy_out_slots).
      assert (Hl : length (take (N.to_nat n) (drop (N.to_nat i) s)) = N.to_nat n).
      { rewrite take_length, drop_length. lia. }
      erewrite copy_in_slots; [|done|rewrite Hl; lia]. by rewrite Hl.
  Qed.

  Lemma copy_at_0 w p i q j : copy_at p i q j 0 w = (Ret tt, w).
  Proof. unfold copy_at. by rewrite orb_true_r. Qed.

  Lemma copy_no_0 w p i q j : copy_nonoverlapping p i q j 0 w = (Ret tt, w).
  Proof. unfold copy_nonoverlapping. by rewrite orb_true_r. Qed.

  Lemma copy_no_slots w p s i q d j n :
    0 < t_size -> slots_at w p s -> slots_at w q d ->
    i + n <= llen s -> j + n <= llen d ->
    (p <> q \/ i + n <= j \/ j + n <= i \/ e_strict = false) ->
    copy_nonoverlapping p i q j n w = (Ret tt, set_slots q (copied s i d j n) w).
  Proof.
    intros Hz Hs Hd Hi Hj Ho. unfold copy_nonoverlapping.
    destruct ((t_size =? 0) || (n =? 0)) eqn:E.
    - assert (n = 0) as -> by lia. unfold copied. simpl. rewrite Nat.add_0_r, take_drop.
      by rewrite set_slots_same.
    - assert (forall (A : Type) c u (k : unit -> M W A) w,
                 (c = true \/ e_strict = false) -> bind (assume c u) k w = k tt w) as Ha.
      { intros A c u k w' [Hc|Hc]; unfold assume; rewrite Hc; [|done].
        by rewrite andb_false_r. }
      rewrite Ha; [by eapply copy_at_slots|].
      destruct Ho as [Ho|[Ho|[Ho|Ho]]]; [left|left|left|by right].
      + rewrite bool_decide_false by done. done.
      + rewrite (proj2 (N.leb_le (i + n) j)) by done.
        by rewrite orb_true_r.
      + rewrite (proj2 (N.leb_le (j + n) i)) by done.
        by rewrite !orb_true_r.
  Qed.

  (** ** Destructors *)
  Definition drop_res (x : T) : res unit :=
    if t_needs_drop && t_drop_panics x then Panic PDrop else Ret tt.
  Lemma drop_val_eq x w : drop_val x w = (drop_res x, add_drop x w).
  Proof. done. Qed.

  Lemma drop_at_slots w p s i x :
    0 < t_size -> slots_at w p s -> s !! N.to_nat i = Some (Some x) ->
    drop_at p i w = (drop_res x, add_drop x w).
  Proof.
    intros Hz Hs Hi. unfold drop_at. destruct (N.eqb_spec t_size 0); [lia|].
    assert (slot_of s i = Some (Some x)) as Hx.
    { rewrite slot_of_Some by (apply lookup_lt_Some in Hi; lia). done. }
    unfold drop_res. destruct t_needs_drop eqn:Hn.
    - erewrite bind_Ret by (by apply get_slots_at). rewrite Hx, drop_val_eq.
      unfold drop_res. by rewrite Hn.
    - erewrite get_slots_at by done. rewrite Hx, drop_val_eq.
      unfold drop_res. by rewrite Hn.
  Qed.

  Lemma slots_at_add_drop w p s x : slots_at (add_drop x w) p s <-> slots_at w p s.
  Proof. by destruct p. Qed.

  Fixpoint add_drops (l : list T) (w : W) : W :=
    match l with [] => w | x :: l => add_drops l (add_drop x w) end.

  Lemma add_drops_app l1 l2 w : add_drops (l1 ++ l2) w = add_drops l2 (add_drops l1 w).
  Proof. revert w. induction l1; simpl; auto. Qed.
  Lemma drops_add_drops l w : drops (add_drops l w) = drops w ++ l.
  Proof.
    revert w. induction l as [|x l IH]; intros w; simpl; [by rewrite app_nil_r|].
    rewrite IH. simpl. by rewrite <-app_assoc.
  Qed.
  Lemma heap_add_drops l w : heap (add_drops l w) = heap w.
  Proof. revert w. induction l as [|x l IH]; intros w; simpl; [done|]. by rewrite IH. Qed.
  Lemma next_add_drops l w : next_id (add_drops l w) = next_id w.
  Proof. revert w. induction l as [|x l IH]; intros w; simpl; [done|]. by rewrite IH. Qed.
  Lemma cur_add_drops l w : cur_scope (add_drops l w) = cur_scope w.
  Proof. revert w. induction l as [|x l IH]; intros w; simpl; [done|]. by rewrite IH. Qed.
  Lemma events_add_drops l w : events (add_drops l w) = events w.
  Proof. revert w. induction l as [|x l IH]; intros w; simpl; [done|]. by rewrite IH. Qed.
  Lemma ncalls_add_drops l w : ncalls (add_drops l w) = ncalls w.
  Proof. revert w. induction l as [|x l IH]; intros w; simpl; [done|]. by rewrite IH. Qed.
  Lemma slots_at_add_drops w p s l : slots_at (add_drops l w) p s <-> slots_at w p s.
  Proof. destruct p; simpl; [done|]. by rewrite heap_add_drops. Qed.

  (** Which elements a stopping drop loop destroys, and its outcome. *)
  Fixpoint drops_until (l : list T) : list T * res unit :=
    match l with
    | [] => ([], Ret tt)
    | x :: l =>
        if t_needs_drop && t_drop_panics x then ([x], Panic PDrop)
        else let '(d, r) := drops_until l in (x :: d, r)
    end.

  Lemma drop_loop_slots l : forall w p s i,
    0 < t_size -> slots_at w p s ->
    take (length l) (drop (N.to_nat i) s) = Some <$> l ->
    drop_loop p i (length l) w = (snd (drops_until l), add_drops (fst (drops_until l)) w).
  Proof.
    induction l as [|x l IH]; intros w p s i Hz Hs Hl; [done|]. simpl in Hl.
    destruct (drop (N.to_nat i) s) as [|y s'] eqn:Hd; [done|]. simpl in Hl.
    injection Hl as -> Hl.
    assert (s !! N.to_nat i = Some (Some x)) as Hi.
    { rewrite <-(Nat.add_0_r (N.to_nat i)), <-lookup_drop, Hd. done. }
    simpl. unfold bind. erewrite drop_at_slots by done. unfold drop_res.
    destruct (t_needs_drop && t_drop_panics x); [done|].
    erewrite IH; [|done|by apply slots_at_add_drop|].
    - by destruct (drops_until l).
    - replace (N.to_nat (i + 1)) with (S (N.to_nat i)) by lia.
      rewrite <-Nat.add_1_r, <-drop_drop, Hd. done.
  Qed.

  (** Outcome of slice drop glue: everything is destroyed unless a second destructor panics. *)
  Fixpoint drops_glue (panicking : bool) (l : list T) : list T * res unit :=
    match l with
    | [] => ([], if panicking then Panic PDrop else Ret tt)
    | x :: l =>
        if t_needs_drop && t_drop_panics x then
          if panicking then ([x], Abort)
          else let '(d, r) := drops_glue true l in (x :: d, r)
        else let '(d, r) := drops_glue panicking l in (x :: d, r)
    end.

  Lemma drop_slice_slots l : forall b w p s i,
    0 < t_size -> slots_at w p s ->
    take (length l) (drop (N.to_nat i) s) = Some <$> l ->
    drop_slice_glue b p i (length l) w =
      (snd (drops_glue b l), add_drops (fst (drops_glue b l)) w).
  Proof.
    induction l as [|x l IH]; intros b w p s i Hz Hs Hl; [by destruct b|]. simpl in Hl.
    destruct (drop (N.to_nat i) s) as [|y s'] eqn:Hd; [done|]. simpl in Hl.
    injection Hl as -> Hl.
    assert (s !! N.to_nat i = Some (Some x)) as Hi.
    { rewrite <-(Nat.add_0_r (N.to_nat i)), <-lookup_drop, Hd. done. }
    assert (take (length l) (drop (N.to_nat (i + 1)) s) = Some <$> l) as Hl'.
    { replace (N.to_nat (i + 1)) with (S (N.to_nat i)) by lia.
      rewrite <-Nat.add_1_r, <-drop_drop, Hd. done. }
    assert (slots_at (add_drop x w) p s) as Hs' by by apply slots_at_add_drop.
    simpl. erewrite drop_at_slots by done. unfold drop_res.
    destruct (t_needs_drop && t_drop_panics x); [destruct b; [done|]|].
    - erewrite IH by done. by destruct (drops_glue true l).
    - erewrite IH by done. by destruct (drops_glue b l).
  Qed.

  Lemma drop_vals_eq l : forall b w,
    drop_vals_glue b l w = (snd (drops_glue b l), add_drops (fst (drops_glue b l)) w).
  Proof.
    induction l as [|x l IH]; intros b w; [by destruct b|]. simpl. unfold drop_res.
    destruct (t_needs_drop && t_drop_panics x); [destruct b; [done|]|].
    - rewrite IH. by destruct (drops_glue true l).
    - rewrite IH. by destruct (drops_glue b l).
  Qed.

  Definition no_drop_panic : Prop := forall x : T, t_drop_panics x = false.

  Lemma drop_res_ok x : no_drop_panic -> drop_res x = Ret tt.
  Proof. intros Hnp. unfold drop_res. by rewrite Hnp, andb_false_r. Qed.
  Lemma drops_until_ok l : no_drop_panic -> drops_until l = (l, Ret tt).
  Proof.
    intros Hnp. induction l as [|x l IH]; simpl; [done|]. by rewrite Hnp, andb_false_r, IH.
  Qed.
  Lemma drops_glue_ok l : no_drop_panic -> drops_glue false l = (l, Ret tt).
  Proof.
    intros Hnp. induction l as [|x l IH]; simpl; [done|]. by rewrite Hnp, andb_false_r, IH.
  Qed.
End mem.
