(** Proofs of the statements collected in PropertiesBox.v: programs that use boxes. *)
From Verif Require Export SpecBox VecFacts.
From Coq Require Import ZifyBool ZifyNat ZifyN.
Ltac Zify.zify_post_hook ::= idtac.

Section boxes.
  Context {EN : Env} {T A : Type} {EL : Elem T} {OR : Ordered T} {IT : Iter T A} {HA : Hashing T}.
  Context (Hz : 0 < t_size) (Hnd : t_needs_drop = false) (Hnp : forall x : T, t_drop_panics x = false).
  Notation W := (world T).
  Notation cells := (list (option (marker * T))).
  Implicit Types (w : W) (cs : cells) (tab : list (option sptr)).

  Definition cell_ok w (o : option sptr) (c : option (marker * T)) : Prop :=
    match o, c with
    | Some p, Some (m, x) => sp_mark p = m /\ exists b, box_at w p b x
    | None, None => True
    | _, _ => False
    end.
  Definition owns tab (b : N) : Prop := exists i p, tab !! i = Some (Some p) /\ sp_ptr p = Blk b.
  (** The table shows the cells; boxes are apart and made after [w0]; other memory is as in [w0]. *)
  Record BInv (w0 : W) tab w cs : Prop := {
    bi_cells : Forall2 (cell_ok w) tab cs;
    bi_apart : forall i j p q, tab !! i = Some (Some p) -> tab !! j = Some (Some q) -> sp_ptr p = sp_ptr q -> i = j;
    bi_new : forall b, owns tab b -> next_id w0 <= b /\ b < next_id w;
    bi_next : next_id w0 <= next_id w;
    bi_rest : forall b, ~ owns tab b -> heap w !! b = heap w0 !! b;
    bi_scope : cur_scope w = cur_scope w0;
  }.

  Lemma cells_at w0 tab w cs i m x : BInv w0 tab w cs -> cs !! i = Some (Some (m, x)) ->
    exists p b, tab !! i = Some (Some p) /\ sp_mark p = m /\ box_at w p b x.
  Proof.
    intros HI Hi. destruct (Forall2_lookup_r _ _ _ _ _ (bi_cells _ _ _ _ HI) Hi) as ([p|]&Hp&Hc); [|done].
    destruct Hc as (<-&b&Hb). by exists p, b.
  Qed.
  Lemma cells_none w0 tab w cs i : BInv w0 tab w cs ->
    (forall m x, cs !! i <> Some (Some (m, x))) -> forall p, tab !! i <> Some (Some p).
  Proof.
    intros HI Hn p Hp. destruct (Forall2_lookup_l _ _ _ _ _ (bi_cells _ _ _ _ HI) Hp) as ([[m x]|]&Hc&Ho); [|done].
    by eapply Hn.
  Qed.

  Lemma write_box w0 tab w cs i p b m x y : BInv w0 tab w cs -> tab !! i = Some (Some p) ->
    cs !! i = Some (Some (m, x)) -> box_at w p b x ->
    exists w', sp_assign p y w = (Ret tt, w') /\ drops w' = drops w /\ BInv w0 tab w' (<[i := Some (m, y)]> cs).
  Proof.
    intros HI Hp Hc Hb. pose proof Hb as (Hq&Hl&Hh). exists (set_slots (Blk b) [Some y] w).
    assert (He : heap (set_slots (Blk b) [Some y] w) = <[b := box_block (sp_alloc p) y]> (heap w)).
    { simpl. by rewrite Hh. }
    split. { unfold sp_assign. erewrite write_at_slots; [|done|by eapply box_slots|done]. by rewrite Hq. }
    assert (Hdr : drops (set_slots (Blk b) [Some y] w) = drops w) by (simpl; by rewrite Hh).
    assert (Hnx : next_id (set_slots (Blk b) [Some y] w) = next_id w) by (simpl; by rewrite Hh).
    assert (Hcu : cur_scope (set_slots (Blk b) [Some y] w) = cur_scope w) by (simpl; by rewrite Hh).
    generalize dependent (set_slots (Blk b) [Some y] w). intros w' He Hdr Hnx Hcu. split; [done|].
    split.
    - apply Forall2_same_length_lookup. split; [rewrite insert_length; by eapply Forall2_length, bi_cells|].
      intros j o c Hj Hcj. destruct (decide (i = j)) as [<-|Hne].
      + rewrite Hp in Hj. injection Hj as <-. rewrite list_lookup_insert in Hcj by (by eapply lookup_lt_Some).
        injection Hcj as <-. simpl. destruct (Forall2_lookup_lr _ _ _ _ _ _ (bi_cells _ _ _ _ HI) Hp Hc) as [Hm _].
        split; [done|]. exists b. split; [done|]. split; [done|]. rewrite He. apply lookup_insert.
      + rewrite list_lookup_insert_ne in Hcj by done.
        pose proof (Forall2_lookup_lr _ _ _ _ _ _ (bi_cells _ _ _ _ HI) Hj Hcj) as Ho.
        destruct o as [q|], c as [[mq z]|]; simpl in *; try done. destruct Ho as (?&b'&Hq'&Hl'&Hh'). split; [done|].
        exists b'. split; [done|]. split; [done|]. rewrite He, lookup_insert_ne; [done|]. intros ->.
        apply Hne. eapply (bi_apart _ _ _ _ HI); [done|done|congruence].
    - apply (bi_apart _ _ _ _ HI).
    - rewrite Hnx. apply (bi_new _ _ _ _ HI).
    - rewrite Hnx. apply (bi_next _ _ _ _ HI).
    - intros b' Hb'. rewrite He, lookup_insert_ne; [by apply (bi_rest _ _ _ _ HI)|]. intros ->. apply Hb'. by exists i, p.
    - rewrite Hcu. apply (bi_scope _ _ _ _ HI).
  Qed.

  Lemma new_box w0 tab w cs x m : BInv w0 tab w cs ->
    (exists p w', box_new_with x m w = (Ret p, w') /\ drops w' = drops w /\
       BInv w0 (tab ++ [Some p]) w' (cs ++ [Some (m, x)])) \/
    (exists e w', box_new_with x m w = (Panic e, w') /\ drops w' = drops w ++ [x] /\
       BInv w0 tab w' cs /\
       ((e = PUnwrap /\ e_aok (ncalls w) t_size = false) \/ (e = PNoEnv /\ cur_scope w0 = None))).
  Proof.
    intros HI. destruct (cur_scope w) as [sc|] eqn:Hsc.
    - destruct (e_aok (ncalls w) t_size) eqn:Ha.
      + left. rewrite (box_new_ok Hz w x m sc Hsc Hnd Ha). do 2 eexists. split; [reflexivity|]. split; [done|].
        assert (Hno : forall b, owns tab b -> b <> next_id w).
        { intros b Hb ->. apply (bi_new _ _ _ _ HI) in Hb. lia. }
        assert (Hown : forall b, owns (tab ++ [Some (SPtr (Blk (next_id w)) 1 (e_alloc_for sc (Selector m t_name)) m)]) b <->
                  owns tab b \/ b = next_id w).
        { intros b. split.
          - intros (j&q&Hj&Hq). apply lookup_app_Some in Hj as [Hj|[_ Hj]]; [left; by exists j, q|].
            right. destruct (j - length tab)%nat; [|done]. simpl in Hj. injection Hj as <-. simpl in Hq. congruence.
          - intros [(j&q&Hj&Hq)| ->]; [exists j, q; split; [by apply lookup_app_l_Some|done]|].
            exists (length tab), (SPtr (Blk (next_id w)) 1 (e_alloc_for sc (Selector m t_name)) m).
            split; [|done]. by rewrite lookup_app_r, Nat.sub_diag. }
        split.
        * apply Forall2_app; [|constructor; [|done]].
          -- apply Forall2_same_length_lookup. split; [by eapply Forall2_length, bi_cells|].
             intros j o c Hj Hc. pose proof (Forall2_lookup_lr _ _ _ _ _ _ (bi_cells _ _ _ _ HI) Hj Hc) as Ho.
             destruct o as [q|], c as [[mq z]|]; simpl in *; try done. destruct Ho as (?&b'&Hq'&Hl'&Hh'). split; [done|].
             exists b'. split; [done|]. split; [done|]. simpl. rewrite lookup_insert_ne; [done|].
             intros <-. eapply Hno; [|done]. by exists j, q.
          -- simpl. split; [done|]. exists (next_id w). split; [done|]. split; [done|]. simpl. apply lookup_insert.
        * intros i j p q Hi Hj Hpq. apply lookup_app_Some in Hi as [Hi|[Hil Hi]]; apply lookup_app_Some in Hj as [Hj|[Hjl Hj]].
          -- by eapply (bi_apart _ _ _ _ HI).
          -- destruct (j - length tab)%nat; [|done]. simpl in Hj. injection Hj as <-. simpl in Hpq.
             exfalso. eapply Hno; [|reflexivity]. by exists i, p.
          -- destruct (i - length tab)%nat; [|done]. simpl in Hi. injection Hi as <-. simpl in Hpq.
             exfalso. eapply Hno; [|reflexivity]. by exists j, q.
          -- destruct (i - length tab)%nat eqn:E1; [|done]. destruct (j - length tab)%nat eqn:E2; [|done]. lia.
        * simpl. intros b [Hb| ->]%Hown; [|split; [apply (bi_next _ _ _ _ HI)|lia]].
          apply (bi_new _ _ _ _ HI) in Hb. lia.
        * simpl. pose proof (bi_next _ _ _ _ HI). lia.
        * intros b Hb. simpl. rewrite lookup_insert_ne.
          -- apply (bi_rest _ _ _ _ HI). intros H. apply Hb, Hown. by left.
          -- intros <-. apply Hb, Hown. by right.
        * simpl. rewrite Hsc, <-Hsc. apply (bi_scope _ _ _ _ HI).
      + right. exists PUnwrap.
        assert (He : box_new_with x m w = (Panic PUnwrap, add_drop x (World (heap w) (next_id w) (S (ncalls w))
          (events w ++ [EvSelect sc (Selector m t_name);
                       EvAlloc (e_alloc_for sc (Selector m t_name)) (Layout t_size t_align) None])
           (drops w) (cur_scope w)))).
        { unfold box_new_with, sp_alloc_val. rewrite bind_assoc. erewrite bind_Ret.
          2: { apply on_unwind_Ret. rewrite (alloc_one Hz _ sc) by done. rewrite Ha. reflexivity. }
          cbv iota beta. rewrite bind_assoc. erewrite bind_Ret; [reflexivity|]. unfold drop_val.
          by rewrite Hnp, andb_false_r. }
        eexists. split; [exact He|]. split; [done|]. split; [|by left].
        destruct HI as [H1 H2 H3 H4 H5 H6]. split; try done.
    - right. exists PNoEnv, (add_drop x w).
      assert (He : box_new_with x m w = (Panic PNoEnv, add_drop x w)).
      { unfold box_new_with, sp_alloc_val, alloc_layout, alloc_for, on_unwind, bind.
        rewrite Hsc. unfold drop_val. by rewrite Hnp, andb_false_r. }
      split; [exact He|]. split; [done|].
      split; [|right; split; [done|by rewrite <-(bi_scope _ _ _ _ HI)]].
      destruct HI as [H1 H2 H3 H4 H5 H6]. split; done.
  Qed.

  Lemma drop_box w0 tab w cs i p b m x : BInv w0 tab w cs -> fresh_ids w0 -> tab !! i = Some (Some p) ->
    cs !! i = Some (Some (m, x)) -> box_at w p b x ->
    exists w', box_drop p w = (Ret tt, w') /\ drops w' = drops w ++ [x] /\ BInv w0 (<[i := None]> tab) w' (<[i := None]> cs).
  Proof.
    intros HI Hf Hp Hc Hb. eexists. rewrite (box_drop_ok Hz w p b x Hb) by (by rewrite Hnd). split; [reflexivity|].
    split; [done|]. pose proof Hb as (Hq&Hl&Hh).
    assert (Hoth : forall j q, <[i := None]> tab !! j = Some (Some q) -> j <> i /\ tab !! j = Some (Some q)).
    { intros j q Hj. destruct (decide (i = j)) as [<-|Hne].
      - rewrite list_lookup_insert in Hj by (by eapply lookup_lt_Some). done.
      - rewrite list_lookup_insert_ne in Hj by done. done. }
    assert (Hown : forall b', owns (<[i := None]> tab) b' <-> owns tab b' /\ b' <> b).
    { intros b'. split.
      - intros (j&q&[Hne Hj]%Hoth&Hqq). split; [by exists j, q|]. intros ->. apply Hne.
        eapply (bi_apart _ _ _ _ HI); [done|done|congruence].
      - intros [(j&q&Hj&Hqq) Hne]. exists j, q. split; [|done]. rewrite list_lookup_insert_ne; [done|].
        intros <-. rewrite Hp in Hj. injection Hj as <-. congruence. }
    split.
    - apply Forall2_same_length_lookup. split; [rewrite !insert_length; by eapply Forall2_length, bi_cells|].
      intros j o c Hj Hcj. destruct (decide (i = j)) as [<-|Hne].
      + rewrite list_lookup_insert in Hj by (by eapply lookup_lt_Some).
        rewrite list_lookup_insert in Hcj by (by eapply lookup_lt_Some). by simplify_eq.
      + rewrite list_lookup_insert_ne in Hj by done. rewrite list_lookup_insert_ne in Hcj by done.
        pose proof (Forall2_lookup_lr _ _ _ _ _ _ (bi_cells _ _ _ _ HI) Hj Hcj) as Ho.
        destruct o as [q|], c as [[mq z]|]; simpl in *; try done. destruct Ho as (?&b'&Hq'&Hl'&Hh'). split; [done|].
        exists b'. split; [done|]. split; [done|]. simpl. rewrite lookup_delete_ne; [done|]. intros ->.
        apply Hne. eapply (bi_apart _ _ _ _ HI); [done|done|congruence].
    - intros j k q r [_ Hj]%Hoth [_ Hk]%Hoth. by eapply (bi_apart _ _ _ _ HI).
    - simpl. intros b' [Hb' _]%Hown. by apply (bi_new _ _ _ _ HI).
    - apply (bi_next _ _ _ _ HI).
    - intros b' Hb'. simpl. destruct (decide (b = b')) as [<-|Hne].
      + rewrite lookup_delete. symmetry. apply Hf. apply (bi_new _ _ _ _ HI). by exists i, p.
      + rewrite lookup_delete_ne by done. apply (bi_rest _ _ _ _ HI). intros H. apply Hb', Hown. done.
    - simpl. apply (bi_scope _ _ _ _ HI).
  Qed.

  Lemma with_box_some tab w i p k : tab !! i = Some (Some p) -> with_box (T:=T) (A:=A) i k (tab, w) = k p (tab, w).
  Proof. intros H. unfold with_box. simpl. by rewrite H. Qed.
  Lemma with_box_none tab w i k : (forall p, tab !! i <> Some (Some p)) ->
    with_box (T:=T) (A:=A) i k (tab, w) = (Ret BIll, (tab, w)).
  Proof. intros H. unfold with_box. simpl. destruct (tab !! i) as [[p|]|] eqn:E; [by destruct (H p)|done|done]. Qed.

  (** A call on one box that reads it, and one that changes it. *)
  Lemma ref_call w0 tab w cs i (k : sptr -> M (list (option sptr) * W) (bobs T A)) (g : marker -> T -> bobs T A * T) :
    BInv w0 tab w cs ->
    (forall p b m x, tab !! i = Some (Some p) -> cs !! i = Some (Some (m, x)) -> sp_mark p = m -> box_at w p b x ->
       exists w', k p (tab, w) = (Ret (fst (g m x)), (tab, w')) /\ drops w' = drops w /\
         BInv w0 tab w' (<[i := Some (m, snd (g m x))]> cs)) ->
    exists w', with_box i k (tab, w) = (Ret (fst (on_cell i cs g)), (tab, w')) /\ drops w' = drops w /\
      BInv w0 tab w' (snd (on_cell i cs g)).
  Proof.
    intros HI H. unfold on_cell. destruct (cs !! i) as [[[m x]|]|] eqn:Hc.
    - destruct (cells_at _ _ _ _ _ _ _ HI Hc) as (p&b&Hp&Hm&Hb). rewrite (with_box_some _ _ _ _ _ Hp).
      destruct (H p b m x Hp eq_refl Hm Hb) as (w'&H1&H2&H3). destruct (g m x). by exists w'.
    - exists w. rewrite with_box_none; [done|]. eapply cells_none; [done|]. by rewrite Hc.
    - exists w. rewrite with_box_none; [done|]. eapply cells_none; [done|]. by rewrite Hc.
  Qed.
  Lemma read_call w0 tab w cs i {R} (k : T -> R) (c : R -> bobs T A) (m0 : sptr -> M W R) :
    BInv w0 tab w cs -> (forall p w, m0 p w = bind (box_ref p) (fun x => ret (k x)) w) ->
    exists w', with_box i (fun p => r <- on_snd (m0 p); ret (c r)) (tab, w)
        = (Ret (fst (on_cell i cs (fun _ x => (c (k x), x)))), (tab, w')) /\ drops w' = drops w /\
      BInv w0 tab w' (snd (on_cell i cs (fun _ x => (c (k x), x)))).
  Proof.
    intros HI Hm. apply ref_call; [done|]. intros p b m x Hp Hc Hmk Hb. exists w. split; [|split; [done|]].
    - erewrite bind_on_snd_Ret; [reflexivity|]. rewrite Hm. unfold box_ref. erewrite bind_Ret by (by eapply (VecProofs6.box_deref Hz)). done.
    - simpl. by rewrite list_insert_id.
  Qed.
  Lemma mut_call w0 tab w cs i {R} (f : T -> R * T) (c : R -> bobs T A) (m0 : sptr -> M W R) :
    BInv w0 tab w cs -> (forall p w, m0 p w = box_ref_mut p f w) ->
    exists w', with_box i (fun p => r <- on_snd (m0 p); ret (c r)) (tab, w)
        = (Ret (fst (on_cell i cs (fun _ x => (c (fst (f x)), snd (f x))))), (tab, w')) /\ drops w' = drops w /\
      BInv w0 tab w' (snd (on_cell i cs (fun _ x => (c (fst (f x)), snd (f x))))).
  Proof.
    intros HI Hm. apply ref_call; [done|]. intros p b m x Hp Hc Hmk Hb.
    destruct (write_box _ _ _ _ _ _ _ _ _ (snd (f x)) HI Hp Hc Hb) as (w'&H1&H2&H3). exists w'.
    split; [|split; done]. erewrite bind_on_snd_Ret; [reflexivity|]. rewrite Hm. unfold box_ref_mut.
    erewrite bind_Ret by (by eapply (VecProofs6.box_deref Hz)). destruct (f x) as [r y]. simpl in *.
    erewrite bind_Ret by exact H1. done.
  Qed.
  Lemma two_call w0 tab w cs i j {R} (k : T -> T -> R) (c : R -> bobs T A) (m0 : sptr -> sptr -> M W R) :
    BInv w0 tab w cs -> (forall p q w, m0 p q w = bind (box_ref p) (fun x => bind (box_ref q) (fun y => ret (k x y))) w) ->
    exists w', with_box i (fun p => with_box j (fun q => r <- on_snd (m0 p q); ret (c r))) (tab, w)
        = (Ret (fst (on_cells i j cs (fun x y => c (k x y)))), (tab, w')) /\ drops w' = drops w /\
      BInv w0 tab w' (snd (on_cells i j cs (fun x y => c (k x y)))).
  Proof.
    intros HI Hm. exists w. unfold on_cells. destruct (cs !! i) as [[[m x]|]|] eqn:Hi.
    2,3: rewrite with_box_none; [by destruct (cs !! j) as [[[? ?]|]|]|]; eapply cells_none; [done|]; by rewrite Hi.
    destruct (cells_at _ _ _ _ _ _ _ HI Hi) as (p&b&Hp&_&Hb). rewrite (with_box_some _ _ _ _ _ Hp).
    destruct (cs !! j) as [[[m' y]|]|] eqn:Hj.
    2,3: rewrite with_box_none; [done|]; eapply cells_none; [done|]; by rewrite Hj.
    destruct (cells_at _ _ _ _ _ _ _ HI Hj) as (q&b'&Hq&_&Hb'). rewrite (with_box_some _ _ _ _ _ Hq).
    split; [|done]. erewrite bind_on_snd_Ret; [reflexivity|]. rewrite Hm. unfold box_ref.
    erewrite bind_Ret by (by eapply (VecProofs6.box_deref Hz)). erewrite bind_Ret by (by eapply (VecProofs6.box_deref Hz)). done.
  Qed.

  Definition step_ok w0 tab w cs (op : bop T) : Prop :=
    (exists tab' w' o cs' d, bspec op cs = (o, cs', d) /\ bexec op (tab, w) = (Ret o, (tab', w')) /\
       drops w' = drops w ++ d /\ BInv w0 tab' w' cs') \/
    (exists x m e w', op = BNew x m /\ bexec op (tab, w) = (Panic e, (tab, w')) /\
       drops w' = drops w ++ [x] /\ BInv w0 tab w' cs /\
       ((e = PUnwrap /\ e_aok (ncalls w) t_size = false) \/ (e = PNoEnv /\ cur_scope w0 = None))).
  Lemma step_ret w0 tab w cs op o : forall cs' w',
    bspec op cs = ((o, cs'), []) -> bexec op (tab, w) = (Ret o, (tab, w')) -> drops w' = drops w -> BInv w0 tab w' cs' ->
    step_ok w0 tab w cs op.
  Proof. intros cs' w' H1 H2 H3 H4. left. exists tab, w', o, cs', []. rewrite app_nil_r. done. Qed.

  Lemma box_step w0 tab w cs op : BInv w0 tab w cs -> fresh_ids w0 -> step_ok w0 tab w cs op.
  Proof.
    intros HI Hf. destruct op as [x m|i|i y|i j|i j|i j|i|i|i|i|i|i n|i|i n|i|i|i l|i|i].
    - destruct (new_box _ _ _ _ x m HI) as [(p&w'&H1&H2&H3)|(e&w'&H1&H2&H3&H4)].
      + left. eexists _, w', _, _, []. split; [reflexivity|]. rewrite app_nil_r. split; [|done].
        unfold bexec. erewrite bind_on_snd_Ret by exact H1. done.
      + right. exists x, m, e, w'. split; [done|]. split; [|done]. unfold bexec.
        erewrite bind_Panic; [reflexivity|]. by apply on_snd_Ret.
    - destruct (read_call _ _ _ _ i (fun x => x) BGot box_ref HI) as (w'&H1&H2&H3).
      { intros p w1. unfold bind, ret. by destruct (box_ref p w1) as [[] ?]. }
      eapply step_ret; [|exact H1|exact H2|exact H3]. simpl. by destruct (on_cell _ _ _).
    - destruct (mut_call _ _ _ _ i (fun x => (x, y)) BGot (fun p => box_ref_mut p (fun x => (x, y))) HI) as (w'&H1&H2&H3); [done|].
      eapply step_ret; [|exact H1|exact H2|exact H3]. simpl. by destruct (on_cell _ _ _).
    - destruct (two_call _ _ _ _ i j t_eq BBool box_eq HI) as (w'&H1&H2&H3); [done|].
      eapply step_ret; [|exact H1|exact H2|exact H3]. simpl. by destruct (on_cells _ _ _ _).
    - destruct (two_call _ _ _ _ i j t_partial_cmp BOrd box_partial_cmp HI) as (w'&H1&H2&H3); [done|].
      eapply step_ret; [|exact H1|exact H2|exact H3]. simpl. by destruct (on_cells _ _ _ _).
    - destruct (two_call _ _ _ _ i j t_cmp (fun o => BOrd (Some o)) box_cmp HI) as (w'&H1&H2&H3); [done|].
      eapply step_ret; [|exact H1|exact H2|exact H3]. simpl. by destruct (on_cells _ _ _ _).
    - destruct (read_call _ _ _ _ i t_hash BWords box_hash HI) as (w'&H1&H2&H3); [done|].
      eapply step_ret; [|exact H1|exact H2|exact H3]. simpl. by destruct (on_cell _ _ _).
    - destruct (read_call _ _ _ _ i t_debug BWords box_debug HI) as (w'&H1&H2&H3); [done|].
      eapply step_ret; [|exact H1|exact H2|exact H3]. simpl. by destruct (on_cell _ _ _).
    - destruct (read_call _ _ _ _ i t_display BWords box_display HI) as (w'&H1&H2&H3); [done|].
      eapply step_ret; [|exact H1|exact H2|exact H3]. simpl. by destruct (on_cell _ _ _).
    - destruct (mut_call _ _ _ _ i iter_next BItem box_next HI) as (w'&H1&H2&H3); [done|].
      eapply step_ret; [|exact H1|exact H2|exact H3]. simpl. by destruct (on_cell _ _ _).
    - destruct (read_call _ _ _ _ i iter_size_hint BHint box_size_hint HI) as (w'&H1&H2&H3); [done|].
      eapply step_ret; [|exact H1|exact H2|exact H3]. simpl. by destruct (on_cell _ _ _).
    - destruct (mut_call _ _ _ _ i (iter_nth n) BItem (fun p => box_nth p n) HI) as (w'&H1&H2&H3); [done|].
      eapply step_ret; [|exact H1|exact H2|exact H3]. simpl. by destruct (on_cell _ _ _).
    - destruct (mut_call _ _ _ _ i iter_next_back BItem box_next_back HI) as (w'&H1&H2&H3); [done|].
      eapply step_ret; [|exact H1|exact H2|exact H3]. simpl. by destruct (on_cell _ _ _).
    - destruct (mut_call _ _ _ _ i (iter_nth_back n) BItem (fun p => box_nth_back p n) HI) as (w'&H1&H2&H3); [done|].
      eapply step_ret; [|exact H1|exact H2|exact H3]. simpl. by destruct (on_cell _ _ _).
    - destruct (read_call _ _ _ _ i iter_len BNum box_len HI) as (w'&H1&H2&H3); [done|].
      eapply step_ret; [|exact H1|exact H2|exact H3]. simpl. by destruct (on_cell _ _ _).
    - destruct (read_call _ _ _ _ i h_finish BNum box_finish HI) as (w'&H1&H2&H3); [done|].
      eapply step_ret; [|exact H1|exact H2|exact H3]. simpl. by destruct (on_cell _ _ _).
    - destruct (mut_call _ _ _ _ i (fun x => (tt, h_write l x)) (fun _ => BDone) (fun p => box_write p l) HI) as (w'&H1&H2&H3); [done|].
      eapply step_ret; [|exact H1|exact H2|exact H3]. simpl. by destruct (on_cell _ _ _).
    - destruct (ref_call _ _ _ _ i (fun p => ret (BMark (box_marker p))) (fun m x => (BMark m, x)) HI) as (w'&H1&H2&H3).
      { intros p b m x Hp Hc Hm Hb. exists w. simpl. rewrite list_insert_id by done. unfold box_marker. by rewrite Hm. }
      eapply step_ret; [|exact H1|exact H2|exact H3]. simpl. by destruct (on_cell _ _ _).
    - destruct (cs !! i) as [[[m x]|]|] eqn:Hc.
      + destruct (cells_at _ _ _ _ _ _ _ HI Hc) as (p&b&Hp&_&Hb).
        destruct (drop_box _ _ _ _ _ _ _ _ _ HI Hf Hp Hc Hb) as (w'&H1&H2&H3).
        left. eexists _, w', _, _, [x]. split; [simpl; rewrite Hc; reflexivity|]. split; [|done].
        unfold bexec. rewrite (with_box_some _ _ _ _ _ Hp). unfold kill_box, bind at 1. simpl.
        erewrite bind_on_snd_Ret by exact H1. done.
      + eapply step_ret; [simpl; rewrite Hc; reflexivity| |reflexivity|exact HI]. unfold bexec.
        apply with_box_none. eapply cells_none; [done|]. by rewrite Hc.
      + eapply step_ret; [simpl; rewrite Hc; reflexivity| |reflexivity|exact HI]. unfold bexec.
        apply with_box_none. eapply cells_none; [done|]. by rewrite Hc.
  Qed.

  Lemma box_history w0 ops : fresh_ids w0 -> forall tab w cs, BInv w0 tab w cs ->
    exists outs tab' w' cs' ds, brun ops (tab, w) = (outs, (tab', w')) /\ btrace cs ops outs cs' ds /\
      drops w' = drops w ++ ds /\ BInv w0 tab' w' cs' /\
      ((forall n k, e_aok n k = true) -> is_Some (cur_scope w0) -> Forall (fun r => exists o, r = Ret o) outs).
  Proof.
    intros Hf. induction ops as [|op ops IH]; intros tab w cs HI; simpl.
    - exists [], tab, w, cs, []. rewrite app_nil_r. split; [done|]. split; [constructor|done].
    - destruct (box_step _ _ _ _ op HI Hf) as [(tab1&w1&o&cs1&d&H1&H2&H3&H4)|(x&m&e&w1&->&H2&H3&H4&H5)].
      + destruct (IH _ _ _ H4) as (outs&tab'&w'&cs'&ds&E1&E2&E3&E4&E5). rewrite H2, E1.
        exists (Ret o :: outs), tab', w', cs', (d ++ ds). split; [done|]. split; [by econstructor|].
        split; [by rewrite E3, H3, app_assoc|]. split; [done|]. intros Ha Hs. constructor; [by exists o|by apply E5].
      + destruct (IH _ _ _ H4) as (outs&tab'&w'&cs'&ds&E1&E2&E3&E4&E5). rewrite H2, E1.
        exists (Panic e :: outs), tab', w', cs', (x :: ds). split; [done|].
        split; [constructor; [|done]; destruct H5 as [[-> _]|[-> _]]; auto|].
        split; [by rewrite E3, H3, <-app_assoc|]. split; [done|]. intros Ha [sc Hs].
        destruct H5 as [[_ H5]|[_ H5]]; [by rewrite Ha in H5|congruence].
  Qed.
  Lemma BInv_init w0 : BInv w0 [] w0 [].
  Proof.
    split; try done; try lia. intros b (i&p&Hi&_). done.
  Qed.
  Lemma BInv_gone w0 tab w cs : BInv w0 tab w cs -> Forall (eq None) cs -> heap w = heap w0.
  Proof.
    intros HI Hg. apply map_eq. intros b. apply (bi_rest _ _ _ _ HI). intros (i&p&Hi&_).
    destruct (Forall2_lookup_l _ _ _ _ _ (bi_cells _ _ _ _ HI) Hi) as (c&Hc&Ho).
    by rewrite <-(Forall_lookup_1 _ _ _ _ Hg Hc) in Ho.
  Qed.
End boxes.

(** * C85 *)

(** Every program that makes, reads, changes, compares, hashes, prints, iterates and drops boxes of a type without drop
    glue does call by call what cells do; its values are destroyed when their boxes are dropped; when all boxes
    are dropped all their memory is released. *)
Lemma p_C85_boxes : forall (EN : Env) (T A : Type) (EL : Elem T) (OR : Ordered T) (IT : Iter T A) (HA : Hashing T)
    (w0 : world T) ops,
  0 < t_size -> t_needs_drop = false -> (forall x : T, t_drop_panics x = false) ->
  (forall b, next_id w0 <= b -> heap w0 !! b = None) ->
  exists outs tab w cs ds, brun (A:=A) ops ([], w0) = (outs, (tab, w)) /\ length outs = length ops /\
    btrace [] ops outs cs ds /\ drops w = drops w0 ++ ds /\
    (Forall (eq None) cs -> heap w = heap w0) /\
    ((forall n k, e_aok n k = true) -> is_Some (cur_scope w0) -> Forall (fun r => exists o, r = Ret o) outs).
Proof.
  intros EN T A EL OR IT HA w0 ops Hz Hnd Hnp Hf.
  destruct (box_history Hz Hnd Hnp w0 ops Hf [] w0 [] (BInv_init w0)) as (outs&tab&w&cs&ds&H1&H2&H3&H4&H5).
  exists outs, tab, w, cs, ds. split; [done|]. split. { clear -H2. induction H2; simpl; congruence. }
  split; [done|]. split; [done|]. split; [|done]. by eapply BInv_gone.
Qed.
(** Numbers that count down when iterated. *)
Definition num_ordered : Ordered N :=
  {| t_eq := N.eqb; t_partial_cmp := fun x y => Some (N.compare x y); t_cmp := N.compare; t_hash := fun x => [x];
     t_debug := fun x => [48 + x]; t_display := fun x => [64 + x] |}.
Definition num_iter : Iter N N :=
  {| iter_next := fun x => if x =? 0 then (None, 0) else (Some x, x - 1);
     iter_size_hint := fun x => (x, Some x);
     iter_nth := fun n x => if x <=? n then (None, 0) else (Some (x - n), x - n - 1);
     iter_next_back := fun x => (None, x); iter_nth_back := fun _ x => (None, x); iter_len := fun x => x |}.
Definition num_hashing : Hashing N := {| h_finish := fun x => x; h_write := fun l x => x + llen l |}.
Lemma x_C85_boxes_ex :
  0 < @t_size N num /\ @t_needs_drop N num = false /\ (forall x : N, @t_drop_panics N num x = false) /\
  (forall b, next_id w_start <= b -> heap w_start !! b = None) /\
  let ops := [BNew 5 MNone; BNew 7 (MType 3); BCmp 0 1; BNext 0; BRead 0; BNth 1 2; BReplace 1 4; BEq 0 1; BMarker 1;
              BWrite 0 [1; 2]; BHash 0; BDebug 1; BDisplay 0; BDrop 0; BRead 0; BDrop 1] in
  fst (@brun env_debug N N num num_ordered num_iter num_hashing ops ([], w_start))
  = [Ret BDone; Ret BDone; Ret (BOrd (Some Lt)); Ret (BItem (Some 5)); Ret (BGot 4); Ret (BItem (Some 5)); Ret (BGot 4);
     Ret (BBool true); Ret (BMark (MType 3)); Ret BDone; Ret (BWords [6]);
     Ret (BWords [52]); Ret (BWords [70]); Ret BDone; Ret BIll; Ret BDone] /\
  drops (snd (snd (@brun env_debug N N num num_ordered num_iter num_hashing ops ([], w_start)))) = drops w_start ++ [6; 4].
Proof. split_and!; try done; [exact (proj2 w_start_ok)|by vm_compute..]. Qed.
