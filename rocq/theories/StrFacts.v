(** Proofs of the statements collected in PropertiesString.v: [String]. *)
From Verif Require Export StrRun Witness.
From Coq Require Import ZifyBool ZifyNat ZifyN.
Ltac Zify.zify_post_hook ::= idtac.
#[export] Existing Instance u8.
Local Hint Resolve z8 nd8 : core.

(** The specification leaves no choice but the allocator's. *)
Lemma tlen_split xs ys xs' ys' :
  xs ++ ys = xs' ++ ys' -> tlen xs = tlen xs' -> xs = xs' /\ ys = ys'.
Proof.
  revert xs'. induction xs as [|x xs IH]; intros [|x' xs'] H Hl; simpl in *; try done.
  - pose proof (ulen_pos x'). lia.
  - pose proof (ulen_pos x). lia.
  - injection H as <- H. destruct (IH xs' H) as [-> ->]; [lia|done].
Qed.
Lemma boundary_long cs i : boundary cs i -> i <= tlen cs.
Proof. intros (xs&ys&->&->). rewrite tlen_app. lia. Qed.
Lemma minus_all {EN : Env} l : forall w0 w css, all_from w0 l w css -> without (heap w) l = heap w0.
Proof.
  induction l as [|s l IH]; intros w0 w css H; inversion H; subst; [done|]. simpl.
  rewrite minus_delete. erewrite IH by eassumption.
  match goal with Hh : text_from _ _ _ _ |- _ => destruct (text_from_rep _ _ _ _ Hh) as [_ Hv] end. exact Hv.
Qed.

(** Runs a history on a new string, for examples. *)
Definition tdemo_outs {EN : Env} (w : world N) (ops : list SpecStr.top) : list (res (vret N)) :=
  match str_new w with (Ret v, w1) => fst (trun ops (v, w1)) | _ => [] end.
Definition tdemo {EN : Env} (w : world N) (ops : list SpecStr.top) : vec * world N :=
  match str_new w with
  | (Ret v, w1) => snd (trun ops (v, w1))
  | (_, w1) => (Vec (sp_dangling 0 MNone) 0, w1)
  end.
Lemma tdemo_text {EN : Env} (w : world N) ops cs :
  wok w -> forallb definedb (tdemo_outs w ops) = true -> N.max (2 * total_tdemand ops) 8 <=? isize_max = true ->
  Forall args_ok ops -> Forall not_mut ops -> Forall scalar cs ->
  vec_as_slice (fst (tdemo w ops)) (snd (tdemo w ops)) = (Ret (encode_all cs), snd (tdemo w ops)) ->
  text_from w (fst (tdemo w ops)) (snd (tdemo w ops)) cs.
Proof.
  intros Hw Hp Hf Ha Hm Hsc Hsl. unfold tdemo, tdemo_outs in *. pose proof Hw as [[sc Hs] _].
  unfold str_new, vec_new, vec_with_marker, alloc_for, bind in *.
  rewrite Hs in *. simpl in *. destruct (trun ops _) as [outs [v w']] eqn:E. simpl in *.
  eexists _, _, ops, outs, (encode_all cs). split; [done|]. split.
  { apply begins_new. unfold str_new, vec_new, vec_with_marker, alloc_for, bind. rewrite Hs. reflexivity. }
  split; [by apply N.leb_le|]. split; [done|]. split; [done|]. split; [exact E|].
  split; [by apply definedb_ok|]. split; [done|]. by apply text_encode.
Qed.
Ltac scal := first [left; reflexivity | right; split; reflexivity].
Ltac args := repeat constructor; cbn; repeat constructor; try scal; try reflexivity.

(** The texts "aéz" (one character of two bytes) and "b€", made without [push] of a non-ASCII
    character. *)
Definition tops1 : list SpecStr.top := [TPushStr [97; 233; 122; 121]; TPop; TInsertStr 3 [122]; TRemove 3].
Definition tops2 : list SpecStr.top := [TPushStr [98; 8364]].
Notation t1 := (@tdemo env_debug w_start tops1).
Notation t2 := (@tdemo env_debug (snd t1) tops2).
Lemma t1_text : @text_from env_debug w_start (fst t1) (snd t1) [97; 233; 122].
Proof. apply tdemo_text; [apply w_start_ok|by vm_compute|by vm_compute|by args|by args|by args|by vm_compute]. Qed.
Lemma t2_text : @text_from env_debug (snd t1) (fst t2) (snd t2) [98; 8364].
Proof.
  apply tdemo_text; [|by vm_compute|by vm_compute|by args|by args|by args|by vm_compute].
  destruct (text_from_rep _ _ _ _ t1_text) as [H _]. by eapply strep_wok.
Qed.
(** In a release build, where [push] of any character is defined. *)
Notation t3 := (@tdemo env_release w_start [TPush 233; TInsert 2 8364; TPush 65]).
Lemma t3_text : @text_from env_release w_start (fst t3) (snd t3) [233; 8364; 65].
Proof. apply tdemo_text; [apply w_start_ok|by vm_compute|by vm_compute|by args|by args|by args|by vm_compute]. Qed.

(** * C41 *)

(** Full statement: after any history of safe calls the bytes are well-formed UTF-8.  Missing: the
    vector handed out by [as_mut_vec], which is a safe method (see [C41_utf8_refuted]).  Every other
    history keeps the bytes well-formed, unless and until one of the two kinds of undefined call
    occurs; panics of single calls, of predicates, iterators and refused allocations included. *)
Lemma p_C41_utf8_partial : forall (EN : Env) (w0 : world N) v0 w1 ops outs v w,
  wok w0 -> begins w0 v0 w1 -> N.max (2 * (vcap v0 + total_tdemand ops)) 8 <= isize_max ->
  Forall args_ok ops -> Forall not_mut ops -> trun ops (v0, w1) = (outs, (v, w)) ->
  (Forall defined outs /\ exists bs, vec_as_slice v w = (Ret bs, w) /\ wellformed bs) \/
  (exists pre op post outs' cs u, ops = pre ++ op :: post /\ outs = outs' ++ [UB u] /\
     Forall defined outs' /\ tunsound e_strict cs op u).
Proof.
  intros EN w0 v0 w1 ops outs v w Hw Hb Hf Ha Hm Hrun.
  destruct (begins_strep _ _ _ Hw Hb) as (cs0&Hs0&Hv0). pose proof (strep_cap _ _ _ Hs0) as [Hc0 _].
  destruct (trun_ok ops (vcap v0) w1 v0 cs0 Hs0) as (outs'&v'&w'&Hrun'&Hcase); try done; [lia|].
  rewrite Hrun in Hrun'. injection Hrun' as <- <- <-.
  destruct Hcase as [(cs'&_&(bs&Ht&Hr)&_&Hd)|(pre&op&post&outs'&cs'&u&->&->&Ht&Hu)].
  - left. split; [done|]. exists bs. split; [by apply (as_slice_ok z8)|by exists cs'].
  - right. exists pre, op, post, outs', cs', u. split; [done|]. split; [done|]. split; [|done].
    clear -Ht. induction Ht as [|cs op ops o outs cs1 cs2 Hsp Ht IH]; constructor; [|done].
    unfold defined. destruct Hsp; eauto.
Qed.
Lemma x_C41_utf8_ex : wok w_start /\ (exists v w, @begins env_debug w_start v w) /\
  tdemo_outs (EN:=env_debug) w_start
    [TPushStr [233; 65]; TInsertStr 1 [97]; TRetain (fun _ c => Some (65 <? c)); TPush 66; TLen] =
    [Ret RUnit; Panic PAssert; Ret RUnit; Ret RUnit; Ret (RNum 3)].
Proof.
  split; [apply w_start_ok|]. split; [eexists _, _; apply begins_new; reflexivity|by vm_compute].
Qed.
(** Writing the byte 255 through [as_mut_vec] makes a [String] that is not UTF-8, in safe code. *)
Lemma p_C41_utf8_refuted : exists (EN : Env) (w0 : world N) v0 w1 ops outs v w bs,
  wok w0 /\ str_new w0 = (Ret v0, w1) /\ Forall args_ok ops /\
  trun ops (v0, w1) = (outs, (v, w)) /\ Forall defined outs /\
  vec_as_slice v w = (Ret bs, w) /\ ~ wellformed bs.
Proof.
  eexists env_debug, w_start, _, _, [TPushStr [97]; TMutVec (OPush 255)], _, _, _, _.
  split; [apply w_start_ok|]. split; [reflexivity|]. split; [by args|]. split; [vm_compute; reflexivity|].
  split; [by apply definedb_ok; vm_compute|]. split; [vm_compute; reflexivity|].
  intros H%utf8_valid_ok. by vm_compute in H.
Qed.

(** * C42 *)

(** Full statement: every history behaves as on a sequence of characters.  Missing: in the strict
    reading, [push] of a non-ASCII character and [insert] make integers from uninitialised memory
    (see [C42_uninit_refuted]), and shrinking an empty string to nothing reallocates to zero bytes;
    the history is followed up to the first such call. *)
Lemma p_C42_history_partial : forall (EN : Env) (w0 : world N) v0 w1 ops,
  wok w0 -> str_new w0 = (Ret v0, w1) -> N.max (2 * total_tdemand ops) 8 <= isize_max ->
  Forall args_ok ops -> Forall not_mut ops ->
  exists outs v w, trun ops (v0, w1) = (outs, (v, w)) /\
  ((exists cs bs, ttrace refuses [] ops outs cs /\ vec_as_slice v w = (Ret bs, w) /\ text cs bs) \/
   (exists pre op post outs' cs u, ops = pre ++ op :: post /\ outs = outs' ++ [UB u] /\
      ttrace refuses [] pre outs' cs /\ tunsound e_strict cs op u)).
Proof.
  intros EN w0 v0 w1 ops Hw Hn Hf Ha Hm.
  destruct (new_born z8 w0 Hw) as (n&w'&Hn'&Hr1&_&_&Hc0).
  unfold str_new in Hn. rewrite Hn in Hn'. injection Hn' as <- <-.
  assert (strep w1 v0 []) as Hs0 by (exists []; split; [constructor|done]).
  destruct (trun_ok ops 0 w1 v0 [] Hs0) as (outs&v&w&Hrun&Hcase); try done; [lia|].
  exists outs, v, w. split; [done|].
  destruct Hcase as [(cs'&Ht&(bs&Htx&Hr)&_)|?]; [left|by right].
  exists cs', bs. split; [done|]. split; [by apply (as_slice_ok z8)|done].
Qed.
Lemma x_C42_history_ex : wok w_start /\
  tdemo_outs (EN:=env_release) w_start
    [TPush 233; TInsert 0 8364; TInsert 1 65; TRemove 3; TRemove 7; TPop; TAsStr; TTruncate 1;
     TTruncate 0; TPop] =
    [Ret RUnit; Ret RUnit; Panic PAssert; Ret (RVal 233); Panic PIndex; Ret (ROpt (Some 8364));
     Ret (RList []); Ret RUnit; Ret RUnit; Ret (ROpt None)].
Proof. split; [apply w_start_ok|by vm_compute]. Qed.
(** One call on any string. *)
Lemma call_ok {EN : Env} (v : vec) (w : world N) cs op :
  has_text v w cs -> N.max (2 * (vcap v + tdemand op)) 8 <= isize_max -> args_ok op -> not_mut op ->
  exists o v' w', texec op (v, w) = (o, (v', w')) /\
  ((exists cs' bs, tspec refuses cs op o cs' /\ vec_as_slice v' w' = (Ret bs, w') /\ text cs' bs /\
      vrest v' w' = vrest v w) \/
   (exists u, o = UB u /\ tunsound e_strict cs op u)).
Proof.
  intros Hs%has_text_rep Hf Ha Hm. pose proof (strep_cap _ _ _ Hs) as [Hc0 _].
  destruct (tstep_ok (vcap v) op w v cs Hs) as (o&v'&w'&He&Hcase); try done; [lia|].
  exists o, v', w'. split; [done|].
  destruct Hcase as [(cs'&Hsp&(bs&Ht&Hr)&Hv&_)|?]; [left|by right].
  exists cs', bs. split; [done|]. split; [by apply (as_slice_ok z8)|]. done.
Qed.
Lemma p_C42_call_partial : forall (EN : Env) v (w : world N) cs op,
  has_text v w cs -> N.max (2 * (vcap v + tdemand op)) 8 <= isize_max -> args_ok op -> not_mut op ->
  exists o v' w', texec op (v, w) = (o, (v', w')) /\
  ((exists cs' bs, tspec refuses cs op o cs' /\ vec_as_slice v' w' = (Ret bs, w') /\ text cs' bs /\
      delete_ptr (vdata v') (heap w') = delete_ptr (vdata v) (heap w)) \/
   (exists u, o = UB u /\ tunsound e_strict cs op u)).
Proof. intros. by apply call_ok. Qed.
Lemma x_C42_call_ex : @has_text env_debug (fst t1) (snd t1) [97; 233; 122] /\
  fst (texec (EN:=env_debug) (TInsertStr 1 [8364]) t1) = Ret RUnit /\
  fst (texec (EN:=env_debug) (TInsertStr 2 [8364]) t1) = Panic PAssert.
Proof. split; [by eexists; apply t1_text|by vm_compute]. Qed.
(** [insert_str], [remove] and [truncate] panic exactly for the wrong indices. *)
Lemma p_C42_panics_exact : forall (EN : Env) v (w : world N) cs i ds,
  has_text v w cs -> i <= usize_max -> Forall scalar ds -> ~ refuses ->
  N.max (2 * (vcap v + tlen ds)) 8 <= isize_max ->
  ((exists p st, texec (TInsertStr i ds) (v, w) = (Panic p, st)) <-> ~ boundary cs i) /\
  ((exists p st, texec (TRemove i) (v, w) = (Panic p, st)) <-> (~ boundary cs i \/ i = tlen cs)) /\
  ((exists p st, texec (TTruncate i) (v, w) = (Panic p, st)) <-> (i < tlen cs /\ ~ boundary cs i)).
Proof.
  intros EN v w cs i ds Ht Hi Hsc Hrf Hf. split; [|split].
  - destruct (call_ok v w cs (TInsertStr i ds) Ht) as (o&v'&w'&He&Hcase); [done|done|done|].
    rewrite He. destruct Hcase as [(cs'&bs&Hsp&_)|(u&->&[(_&_&[(?&?&_)|[(?&?&?&_)|(?&?&?&?&?&_)]])|([?|?]&_)])];
      try done.
    inversion Hsp; subst; split; try (by intros (?&?&?)); try done; try (by eauto).
    intros Hn. destruct Hn. by eexists _, _.
  - destruct (call_ok v w cs (TRemove i) Ht) as (o&v'&w'&He&Hcase); [cbn; lia|done|done|].
    rewrite He. destruct Hcase as [(cs'&bs&Hsp&_)|(u&->&[(_&_&[(?&?&_)|[(?&?&?&_)|(?&?&?&?&?&_)]])|([?|?]&_)])];
      try done.
    inversion Hsp; subst; split; try (by intros (?&?&?)); try (by eauto).
    intros [Hn|Hn]; [destruct Hn; by eexists _, _|]. rewrite tlen_app in Hn. simpl in Hn.
    pose proof (ulen_pos c). lia.
  - destruct (call_ok v w cs (TTruncate i) Ht) as (o&v'&w'&He&Hcase); [cbn; lia|done|done|].
    rewrite He. destruct Hcase as [(cs'&bs&Hsp&_)|(u&->&[(_&_&[(?&?&_)|[(?&?&?&_)|(?&?&?&?&?&_)]])|([?|?]&_)])];
      try done.
    inversion Hsp; subst; split; try (by intros (?&?&?)); try (by eauto).
    + intros [_ Hn]. destruct Hn. by eexists _, _.
    + intros [? _]. lia.
Qed.
Lemma x_C42_panics_exact_ex : @has_text env_debug (fst t1) (snd t1) [97; 233; 122] /\
  ~ @refuses env_debug /\ boundary [97; 233; 122] 3 /\ ~ boundary [97; 233; 122] 2.
Proof.
  split; [by eexists; apply t1_text|]. split; [intros (?&?&?); done|].
  split; [by exists [97; 233], [122]|].
  intros (xs&ys&He&Hl). destruct xs as [|? [|? [|? [|? ?]]]]; simplify_eq/=; try done.
Qed.
(** In the strict reading, [push] of any non-ASCII character is undefined behaviour. *)
Lemma p_C42_uninit_refuted : forall (EN : Env) v (w : world N) cs c,
  e_strict = true -> has_text v w cs -> scalar c -> 128 <= c ->
  texec (TPush c) (v, w) = (UB UninitRead, (v, w)) /\
  forall i, boundary cs i -> texec (TInsert i c) (v, w) = (UB UninitRead, (v, w)).
Proof.
  intros EN v w cs c Hst Hs%has_text_rep Hsc Hc. split.
  - cbn [texec]. by erewrite bind_UB by (by apply str_push_strict).
  - intros i Hb. cbn [texec]. by erewrite bind_UB by (by eapply str_insert_strict).
Qed.
Lemma x_C42_uninit_ex : e_strict (Profile:=@e_profile env_debug) = true /\
  @has_text env_debug (fst t1) (snd t1) [97; 233; 122] /\ scalar 233 /\
  fst (texec (EN:=env_debug) (TPush 233) t1) = UB UninitRead.
Proof. split; [done|]. split; [by eexists; apply t1_text|]. split; [scal|by vm_compute]. Qed.

(** * C43 *)

(** A byte vector with any history; [heap w' = heap w0]: its memory is released. *)
Lemma p_C43_from_utf8 : forall (EN : Env) (w0 : world N) v w bs, reached_from w0 v w bs ->
  (wellformed bs /\ str_from_utf8 v w = (Ret (Some v), w) /\ vec_as_slice v w = (Ret bs, w)) \/
  (~ wellformed bs /\ exists w', str_from_utf8 v w = (Ret None, w') /\ heap w' = heap w0).
Proof.
  intros EN w0 v w bs Hre. destruct (reached_from_rep z8 _ _ _ _ Hre) as [Hr Hh].
  destruct (str_from_utf8_ok w v bs Hr) as [(cs&Ht&He)|(Hn&w'&He&Hg&_)].
  - left. split; [by exists cs|]. split; [done|by apply (as_slice_ok z8)].
  - right. split; [done|]. exists w'. split; [done|]. by rewrite Hg.
Qed.
Lemma x_C43_from_utf8_ex :
  (exists v w, @reached_from env_debug N u8 w_start v w [195; 169] /\
     fst (str_from_utf8 v w) = Ret (Some v)) /\
  (exists v w, @reached_from env_debug N u8 w_start v w [237; 160; 128] /\
     fst (str_from_utf8 v w) = Ret None).
Proof.
  split.
  - exists (fst (@demo env_debug N u8 w_start [OPush 195; OPush 169])), (snd (@demo env_debug N u8 w_start [OPush 195; OPush 169])).
    split; [|by vm_compute].
    eexists _, _, [OPush 195; OPush 169], _. split; [apply w_start_ok|]. split; [by vm_compute|].
    split; [reflexivity|]. split; [vm_compute; reflexivity|]. split; [by apply definedb_ok; vm_compute|by vm_compute].
  - exists (fst (@demo env_debug N u8 w_start [OPush 237; OPush 160; OPush 128])), (snd (@demo env_debug N u8 w_start [OPush 237; OPush 160; OPush 128])).
    split; [|by vm_compute].
    eexists _, _, [OPush 237; OPush 160; OPush 128], _. split; [apply w_start_ok|]. split; [by vm_compute|].
    split; [reflexivity|]. split; [vm_compute; reflexivity|]. split; [by apply definedb_ok; vm_compute|by vm_compute].
Qed.

(** * C44 *)

(** Full statement: [from_utf16] returns the encoded text, or an error exactly for unpaired
    surrogates.  Missing: in the strict reading, a unit above 127 may make it undefined (see
    [C44_from_utf16_refuted]); and the allocator may refuse. *)
Lemma p_C44_from_utf16_partial : forall (EN : Env) (w : world N) us,
  wok w -> Forall (fun u => u < 65536) us -> 4 * llen us <= isize_max ->
  exists r w', str_from_utf16 us w = (r, w') /\
  ((exists cs v bs, text16 cs us /\ r = Ret (Some v) /\ vec_as_slice v w' = (Ret bs, w') /\ text cs bs /\
      delete_ptr (vdata v) (heap w') = heap w) \/
   ((~ exists cs, text16 cs us) /\ r = Ret None /\ heap w' = heap w) \/
   (r = Panic PUnwrap /\ refuses /\ heap w' = heap w) \/
   (e_strict = true /\ r = UB UninitRead /\ exists u, u ∈ us /\ 128 <= u)).
Proof.
  intros EN w us Hw Hus Hl. destruct (str_from_utf16_ok w us Hw Hus Hl) as (r&w'&He&Hcase).
  exists r, w'. split; [done|].
  destruct Hcase as [(cs&v&Ht&->&(bs&Hb&Hr)&l&Hbo&_)|[(?&?&l&?&_)|[(?&?&l&?&_)|?]]].
  - left. exists cs, v, bs. split; [done|]. split; [done|]. split; [by apply (as_slice_ok z8)|]. done.
  - right. left. done. - right. right. left. done. - by right; right; right.
Qed.
Lemma x_C44_from_utf16_ex : wok w_start /\ text16 [233; 128512] [233; 55357; 56832] /\
  (exists v, fst (@str_from_utf16 env_release [233; 55357; 56832] w_start) = Ret (Some v)) /\
  fst (@str_from_utf16 env_release [65; 55357; 65] w_start) = Ret None.
Proof.
  split; [apply w_start_ok|]. split.
  { apply (text16_cons 233 [128512] [233]); [constructor; [done|scal]|].
    apply (text16_cons 128512 [] [55357; 56832] []); [by apply (utf16_2 61 512)|constructor]. }
  split; [by eexists; vm_compute|by vm_compute].
Qed.
Lemma p_C44_from_utf16_refuted : exists (EN : Env) (w : world N) us cs,
  wok w /\ text16 cs us /\ fst (str_from_utf16 us w) = UB UninitRead.
Proof.
  exists env_debug, w_start, [233], [233]. split; [apply w_start_ok|]. split; [|by vm_compute].
  apply (text16_cons 233 [] [233] []); [constructor; [done|scal]|constructor].
Qed.

(** * C45 *)

(** Full statement: [String::from(&str)], [from(char)], [from(&String)] and [from_str] return the same
    text.  It fails for every text but the empty one: they panic in [clone_from_slice]. *)
Lemma p_C45_from_text_refuted : forall (EN : Env) (w : world N) cs,
  wok w -> Forall scalar cs -> cs <> [] ->
  (exists w', str_from_str (encode_all cs) w = (Panic PLen, w') /\ heap w' = heap w) /\
  (forall c, e_strict = false -> exists w', str_from_char c w = (Panic PLen, w') /\ heap w' = heap w) /\
  (forall c, e_strict = true -> str_from_char c w = (UB UninitRead, w)) /\
  (forall v, has_text v w cs -> exists w', str_from_string v w = (Panic PLen, w') /\ heap w' = heap w).
Proof.
  intros EN w cs Hw Hsc Hne.
  assert (Hgo : forall bs, bs <> [] -> exists w', vec_from_slice bs w = (Panic PLen, w') /\ heap w' = heap w).
  { intros bs Hb. destruct (from_slice_ok z8 w bs Hw) as (r&w'&He&(Hh&_)&Hcase).
    destruct bs; [done|]. subst r. by exists w'. }
  assert (Hcb : forall bs, text cs bs -> bs <> []).
  { intros bs Ht ->. apply Hne. by apply text_empty. }
  split; [by apply Hgo, Hcb, text_encode|]. split; [|split].
  - intros c Hst. unfold str_from_char, assume. rewrite Hst. simpl. rewrite bind_ret. apply Hgo.
    unfold encode_utf8. by repeat destruct (_ <? _).
  - intros c Hst. unfold str_from_char, assume, bind. by rewrite Hst.
  - intros v (bs&Ht&Hr)%has_text_rep. unfold str_from_string.
    erewrite bind_Ret by (by apply (as_slice_ok z8)). by apply Hgo, Hcb.
Qed.
Lemma p_C45_from_text_partial : forall (EN : Env) (w : world N),
  wok w -> exists v w', str_from_str [] w = (Ret v, w') /\ vec_as_slice v w' = (Ret [], w') /\ heap w' = heap w.
Proof.
  intros EN w Hw. destruct (from_slice_ok z8 w [] Hw) as (r&w'&He&(Hh&_)&(v&->&Hr&_)).
  exists v, w'. split; [done|]. split; [by apply (as_slice_ok z8)|done].
Qed.
Lemma x_C45_from_text_ex : wok w_start /\ Forall scalar [104; 105] /\
  fst (@str_from_str env_debug (encode_all [104; 105]) w_start) = Panic PLen.
Proof. split; [apply w_start_ok|]. split; [by args|by vm_compute]. Qed.

(** * C46 *)

(** Full statement: [split_off(i)] at a boundary returns the tail and keeps the head.  In the code the
    string keeps everything and the returned string is empty (its capacity is that of the tail). *)
Lemma p_C46_split_off_refuted : forall (EN : Env) v (w : world N) cs i,
  has_text v w cs -> boundary cs i -> ~ refuses ->
  exists o w' bs, str_split_off i (v, w) = (Ret o, (v, w')) /\ vec_as_slice o w' = (Ret [], w') /\
    vec_as_slice v w' = (Ret bs, w') /\ text cs bs.
Proof.
  intros EN v w cs i Hs%has_text_rep Hb Hrf.
  destruct (str_split_off_ok w v cs i Hs) as [[Hn _]|(_&r&w'&He&(bs&Ht&Hr)&[(o&->&Ho&_)|(_&_&?)])]; try done.
  exists o, w', bs. split; [done|]. split; [by apply (as_slice_ok z8)|].
  split; [by apply (as_slice_ok z8)|done].
Qed.
Lemma x_C46_split_off_ex : @has_text env_debug (fst t1) (snd t1) [97; 233; 122] /\
  boundary [97; 233; 122] 3 /\ ~ @refuses env_debug.
Proof.
  split; [by eexists; apply t1_text|]. split; [by exists [97; 233], [122]|]. intros (?&?&?); done.
Qed.
(** What holds: an index that is no boundary panics and changes nothing, the string keeps its text,
    and no memory but the returned string's is taken. *)
Lemma p_C46_split_off_partial : forall (EN : Env) v (w : world N) cs i,
  has_text v w cs ->
  (~ boundary cs i /\ str_split_off i (v, w) = (Panic PAssert, (v, w))) \/
  (boundary cs i /\ exists r w' bs, str_split_off i (v, w) = (r, (v, w')) /\
     vec_as_slice v w' = (Ret bs, w') /\ text cs bs /\
     ((exists o, r = Ret o /\ delete_ptr (vdata o) (heap w') = heap w) \/
      (r = Panic PUnwrap /\ heap w' = heap w /\ refuses))).
Proof.
  intros EN v w cs i Hs%has_text_rep.
  destruct (str_split_off_ok w v cs i Hs) as [?|(Hb&r&w'&He&(bs&Ht&Hr)&Hcase)]; [by left|right].
  split; [done|]. exists r, w', bs. split; [done|]. split; [by apply (as_slice_ok z8)|]. split; [done|].
  destruct Hcase as [(o&->&_&Hv&_)|?]; [left; by exists o|by right].
Qed.

(** * C47 *)

(** Two strings, the second made after the first. *)
Lemma p_C47_order : forall (EN : Env) (w0 : world N) v1 w1 xs v2 w2 ys,
  text_from w0 v1 w1 xs -> text_from w1 v2 w2 ys ->
  (exists o, str_cmp v1 v2 w2 = (Ret o, w2) /\ code_order xs ys o) /\
  (exists b, str_eq v1 v2 w2 = (Ret b, w2) /\ (b = true <-> xs = ys)).
Proof.
  intros EN w0 v1 w1 xs v2 w2 ys H1 H2. destruct (text_from_rep _ _ _ _ H1) as [Hs1 _].
  destruct (text_from_rep _ _ _ _ H2) as [Hs2 Hv]. destruct (strep_older _ _ _ _ _ _ Hs1 Hs2 Hv) as [Hs _].
  split; [by apply str_cmp_ok|by apply str_eq_ok].
Qed.
Lemma x_C47_order_ex : @text_from env_debug w_start (fst t1) (snd t1) [97; 233; 122] /\
  @text_from env_debug (snd t1) (fst t2) (snd t2) [98; 8364] /\
  fst (str_cmp (fst t1) (fst t2) (snd t2)) = Ret Lt /\
  fst (str_eq (fst t1) (fst t2) (snd t2)) = Ret false.
Proof. split; [apply t1_text|]. split; [apply t2_text|by vm_compute]. Qed.
(** The order of the specification is a total order consistent with equality. *)
Lemma p_C47_order_total : forall xs ys, exists o, code_order xs ys o /\
  (forall o', code_order xs ys o' -> o' = o) /\ (o = Eq <-> xs = ys) /\ code_order ys xs (CompOpp o).
Proof.
  induction xs as [|x xs IH]; intros [|y ys].
  - exists Eq. split; [constructor|]. split; [by inversion 1|]. split; [done|constructor].
  - exists Lt. split; [constructor|]. split; [by inversion 1|]. split; [done|constructor].
  - exists Gt. split; [constructor|]. split; [by inversion 1|]. split; [done|constructor].
  - destruct (N.lt_trichotomy x y) as [Hl|[->|Hl]].
    + exists Lt. split; [by constructor|]. split; [by inversion 1; subst; try lia|].
      split; [split; [done|]; intros [= -> ->]; lia|by constructor].
    + destruct (IH ys) as (o&Ho&Hu&He&Hr). exists o. split; [by constructor|]. split.
      { inversion 1; subst; try lia. by apply Hu. }
      split; [rewrite He; split; [by intros ->|by intros [=]]|by constructor].
    + exists Gt. split; [by constructor|]. split; [by inversion 1; subst; try lia|].
      split; [split; [done|]; intros [= -> ->]; lia|by constructor].
Qed.
Lemma x_C47_order_total_ex : code_order [97; 233] [97; 8364] Lt /\ code_order [97] [97; 1] Lt.
Proof. split; apply co_eq; [by apply co_lt|constructor]. Qed.

(** [Hash]: the bytes of the text and the byte 255, whatever the hasher; so equal strings have
    equal hashes. *)
Lemma p_C47_hash : forall (EN : Env) (w0 : world N) v w cs (H : Type) (hb : H -> N -> H) (h : H),
  text_from w0 v w cs ->
  exists bs, text cs bs /\ str_hash hb h v w = (Ret (fold_left hb (bs ++ [255]) h), w).
Proof.
  intros EN w0 v w cs H hb h [Hs _]%text_from_rep.
  destruct (str_hash_ok hb h w v cs Hs) as (bs&Ht&He). exists bs. split; [done|].
  by rewrite fold_left_app.
Qed.
Lemma x_C47_hash_ex : @text_from env_debug w_start (fst t1) (snd t1) [97; 233; 122] /\
  text [97; 233; 122] [97; 195; 169; 122] /\
  fst (str_hash (fun h b => h ++ [b]) [] (fst t1) (snd t1)) = Ret [97; 195; 169; 122; 255].
Proof. split; [apply t1_text|]. split; [|by vm_compute].
  apply (text_cons 97 _ [97]); [by apply utf8_1|]. apply (text_cons 233 _ [195; 169]); [by apply (utf8_2 3 41)|].
  apply (text_cons 122 _ [122] []); [by apply utf8_1|constructor].
Qed.

(** * C97 *)

(** [clone]: a string with the same text and memory of its own; dropping either leaves the other. *)
Lemma p_C97_clone : forall (EN : Env) (w0 : world N) v w cs, text_from w0 v w cs ->
  exists r w' bs, str_clone v w = (r, w') /\ text cs bs /\ vec_as_slice v w' = (Ret bs, w') /\
    ((exists v', r = Ret v' /\ vec_as_slice v' w' = (Ret bs, w') /\ str_eq v v' w' = (Ret true, w') /\
        (exists w1, vec_drop_val v' w' = (Ret tt, w1) /\ heap w1 = heap w /\ vec_as_slice v w1 = (Ret bs, w1)) /\
        (exists w1, vec_drop_val v w' = (Ret tt, w1) /\ delete_ptr (vdata v') (heap w1) = heap w0 /\
           vec_as_slice v' w1 = (Ret bs, w1))) \/
     (r = Panic PUnwrap /\ refuses /\ heap w' = heap w)).
Proof.
  intros EN w0 v w cs Hf. destruct (text_from_rep _ _ _ _ Hf) as [Hs Hv0].
  pose proof Hs as (bs&Ht&Hr). destruct (clone_ok z8 w v bs Hr nd8) as (r&w'&He&Hcase).
  exists r, w', bs. split; [done|]. split; [done|].
  destruct Hcase as [(v'&ys&->&Hm&Hr'&Hb)|[(l1&x&l2&ys&_&_&Hx&_)|(->&Hst&Hrf)]]; [|done|].
  - rewrite clone8 in Hm. injection Hm as <-.
    destruct (born_other z8 w v bs v' w' [] bs Hr Hb Hr') as [Hr2 Ha].
    split; [by apply (as_slice_ok z8)|]. left. exists v'. split; [done|].
    split; [by apply (as_slice_ok z8)|]. split.
    { destruct (str_eq_ok w' v v' cs cs) as (b&Hb'&Heq); [by exists bs|by exists bs|].
      rewrite Hb'. destruct b; [done|]. exfalso. by discriminate (proj2 Heq eq_refl). }
    destruct Hb as (Hh&_&_&_&Hw'). split.
    + destruct (vec_drop_val_gone z8 w' v' bs Hr' nd8) as (w1&Hd&Hg). exists w1. split; [done|].
      pose proof Hg as (Hg1&_). split; [by rewrite Hg1|]. apply (as_slice_ok z8).
      by eapply (gone_other z8).
    + destruct (vec_drop_val_gone z8 w' v bs Hr2 nd8) as (w1&Hd&Hg). exists w1. split; [done|].
      pose proof Hg as (Hg1&_). split; [|apply (as_slice_ok z8); eapply (gone_other z8); [exact Hr'| |exact Hg]; by apply apart_sym].
      rewrite Hg1. unfold vrest. rewrite <-Hv0. unfold vrest. rewrite <-Hh. unfold vrest.
      destruct (vdata v) as [|b], (vdata v') as [|b']; simpl; try done. by rewrite delete_commute.
  - destruct Hst as (Hh&Hd&_&Hn&Hw'). split; [|by right]. apply (as_slice_ok z8).
    destruct Hr as [Hl [rest (_&Hsl&Hb&Hm)]]. split; [done|]. exists rest. split_and!; try done.
    destruct (vdata v) as [|b]; [done|]. rewrite Hh. destruct Hm as (?&Hlt&?).
    split_and!; try done. clear -Hn Hlt. lia.
Qed.
Lemma x_C97_clone_ex : @text_from env_debug w_start (fst t1) (snd t1) [97; 233; 122] /\
  exists v' w', @str_clone env_debug (fst t1) (snd t1) = (Ret v', w') /\
    vec_as_slice v' w' = (Ret [97; 195; 169; 122], w').
Proof. split; [apply t1_text|]. eexists _, _. split; vm_compute; reflexivity. Qed.

(** * C48 *)

(** What extending by the texts [dss], one after the other, may do to the text [cs]: append all of
    them, or, when the allocator refuses, the first few. *)
Definition appended (may_refuse : Prop) (cs : list N) (dss : list (list N)) (r : res unit) (cs' : list N)
  : Prop :=
  exists pre post, dss = pre ++ post /\ cs' = cs ++ concat pre /\
    ((r = Ret tt /\ post = []) \/ (r = Panic PUnwrap /\ may_refuse /\ post <> [])).
(** The same for an iterator that may panic ([None]).  Room may be refused before the first item. *)
Definition appended_it (may_refuse : Prop) (cs : list N) (it : list (option (list N))) (r : res unit)
  (cs' : list N) : Prop :=
  exists pre post, it = (Some <$> pre) ++ post /\ cs' = cs ++ concat pre /\
    ((r = Ret tt /\ post = []) \/ (r = Panic PUser /\ exists t, post = None :: t) \/
     (r = Panic PUnwrap /\ may_refuse /\ (pre = [] \/ exists d t, post = Some d :: t))).

(** Full statement: extending by characters, texts, strings or boxed texts appends them in order, and
    [+] appends.  Missing: in the strict reading, non-ASCII characters (see [C48_chars_refuted]); boxed
    empty texts in the rest of an iterator that is dropped early.  Size hints are bounded by the
    address space. *)
Lemma p_C48_extend_chars_partial : forall (EN : Env) v (w : world N) cs it h,
  has_text v w cs -> (forall c, Some c ∈ it -> scalar c) ->
  N.max (2 * (vcap v + (4 * llen it + h))) 8 <= isize_max ->
  exists r v' w', str_extend_chars it h (v, w) = (r, (v', w')) /\
  ((exists cs' bs, appended_it refuses cs (option_map (fun c => [c]) <$> it) r cs' /\
      vec_as_slice v' w' = (Ret bs, w') /\ text cs' bs /\
      delete_ptr (vdata v') (heap w') = delete_ptr (vdata v) (heap w)) \/
   (e_strict = true /\ r = UB UninitRead /\ exists c, Some c ∈ it /\ 128 <= c)).
Proof.
  intros EN v w cs it h Ht Hsc Hf.
  destruct (call_ok v w cs (TExtendChars it h) Ht) as (o&v'&w'&He&Hcase); [done|done|done|].
  cbn [texec] in He. unfold bind in He. destruct (str_extend_chars it h (v, w)) as [r [v1 w1]] eqn:E.
  exists r, v1, w1. split; [done|].
  assert (Hcc : forall ds : list N, concat ((fun c => [c]) <$> ds) = ds).
  { clear. induction ds as [|c ds IH]; [done|]. rewrite fmap_cons. simpl. by rewrite IH. }
  assert (Hm : forall ds : list N, option_map (fun c => [c]) <$> (Some <$> ds) = Some <$> ((fun c : N => [c]) <$> ds)).
  { clear. induction ds as [|c ds IH]; [done|]. rewrite !fmap_cons. by rewrite IH. }
  destruct Hcase as [(cs'&bs&Hsp&Hsl&Htx&Hv)|(u&->&Hu)].
  - left. unfold ret in He. inversion Hsp; subst; destruct r as [[]|p| |u]; simplify_eq/=.
    + eexists _, bs. split; [|split; [exact Hsl|split; [exact Htx|exact Hv]]].
      exists ((fun c => [c]) <$> ds), []. rewrite app_nil_r, Hm, Hcc. auto.
    + eexists _, bs. split; [|split; [exact Hsl|split; [exact Htx|exact Hv]]].
      eexists ((fun c => [c]) <$> ds), _. rewrite fmap_app, Hm, Hcc. split; [reflexivity|]. split; [done|].
      right. left. split; [done|]. by eexists.
    + eexists _, bs. split; [|split; [exact Hsl|split; [exact Htx|exact Hv]]].
      eexists [], _. split; [reflexivity|]. simpl. rewrite app_nil_r. split; [done|]. right. right. auto.
    + eexists _, bs. split; [|split; [exact Hsl|split; [exact Htx|exact Hv]]].
      eexists ((fun c => [c]) <$> ds), _. rewrite fmap_app, Hm, Hcc. split; [reflexivity|]. split; [done|].
      right. right. split; [done|]. split; [done|]. right. by eexists _, _.
  - right. unfold ret in He. destruct r; simplify_eq/=.
    destruct Hu as [(Hst&->&[(?&?&_)|[(?&?&?&_)|(pre&c&post&?&Heq&Hc)]])|([?|?]&_)]; try done.
    injection Heq as -> _. split; [done|]. split; [done|]. exists c. split; [|done].
    apply elem_of_app. right. left.
Qed.
Lemma x_C48_extend_chars_ex : @has_text env_release (fst t3) (snd t3) [233; 8364; 65] /\
  fst (str_extend_chars (EN:=env_release) [Some 233; Some 66; None] 100 t3) = Panic PUser.
Proof. split; [by eexists; apply t3_text|by vm_compute]. Qed.
Lemma p_C48_chars_refuted : exists (EN : Env) v (w : world N) cs it,
  has_text v w cs /\ (forall c, Some c ∈ it -> scalar c) /\
  fst (str_extend_chars it 0 (v, w)) = UB UninitRead.
Proof.
  exists env_debug, (fst t1), (snd t1), [97; 233; 122], [Some 233]. split; [by eexists; apply t1_text|].
  split; [|by vm_compute]. intros c Hc. apply elem_of_list_singleton in Hc. injection Hc as ->. scal.
Qed.
(** Texts. *)
Lemma p_C48_extend_strs : forall (EN : Env) v (w : world N) cs it,
  has_text v w cs -> (forall ds, Some ds ∈ it -> Forall scalar ds) ->
  N.max (2 * (vcap v + foldr (fun o n => from_option tlen 0 o + n) 0 it)) 8 <= isize_max ->
  exists r v' w' cs' bs, str_extend_strs (option_map encode_all <$> it) (v, w) = (r, (v', w')) /\
    appended_it refuses cs it r cs' /\ vec_as_slice v' w' = (Ret bs, w') /\ text cs' bs /\
    delete_ptr (vdata v') (heap w') = delete_ptr (vdata v) (heap w).
Proof.
  intros EN v w cs it Hs%has_text_rep Hsc Hf. pose proof (strep_cap _ _ _ Hs) as [Hc _].
  destruct (extend_strs_ok it w v cs Hs Hsc) as (r&v'&w'&dss&He&(bs&Ht&Hr)&Haf&_&_&Hcase); [lia|].
  exists r, v', w', (cs ++ concat dss), bs. split; [done|]. split; [|split; [by apply (as_slice_ok z8)|]].
  - exists dss. destruct Hcase as [(->&->)|[(->&post&->)|(->&Hrf&c&post&->)]].
    + exists []. rewrite app_nil_r. auto.
    + exists (None :: post). split; [done|]. split; [done|]. right. left. eauto.
    + exists (Some c :: post). split; [done|]. split; [done|]. right. right. split; [done|]. split; [done|]. right. by eexists _, _.
  - split; [done|]. by apply af_rest.
Qed.
Lemma x_C48_extend_strs_ex : @has_text env_debug (fst t1) (snd t1) [97; 233; 122] /\
  fst (str_extend_strs (EN:=env_debug) (option_map encode_all <$> [Some [233]; Some []; Some [97; 98]]) t1) = Ret tt.
Proof. split; [by eexists; apply t1_text|by vm_compute]. Qed.
(** Owned strings, each made after the ones before; the buffer of the first one is taken over when
    the string has no capacity.  The heap ends up with the extended string and nothing else new: all
    items are released, when the allocator refuses as well. *)
Lemma p_C48_extend_strings : forall (EN : Env) (w00 : world N) v w0 cs l w css,
  text_from w00 v w0 cs -> all_from w0 l w css -> tlen cs + tlen (concat css) <= isize_max ->
  exists r v' w' cs' bs, str_extend_strings l (v, w) = (r, (v', w')) /\
    appended refuses cs css r cs' /\ vec_as_slice v' w' = (Ret bs, w') /\ text cs' bs /\
    delete_ptr (vdata v') (heap w') = heap w00.
Proof.
  intros EN w00 v w0 cs l w css Hv Hl Hf. destruct (text_from_rep _ _ _ _ Hv) as [Hs0 Hh0].
  destruct (all_from_owned _ _ _ _ Hl) as [Ho Hold]. destruct (Hold _ _ Hs0) as [Hs Ha].
  destruct (extend_strings_ok l w v cs css Hs Ho Ha Hf) as (r&v'&w'&pre&post&He&Hcss&(bs&Ht&Hr)&Hm&Hcase).
  exists r, v', w', (cs ++ concat pre), bs. split; [done|]. split; [by exists pre, post|].
  split; [by apply (as_slice_ok z8)|]. split; [done|].
  change (vrest v' w' = heap w00). rewrite Hm. unfold vrest. rewrite minus_delete, (minus_all _ _ _ _ Hl).
  exact Hh0.
Qed.
Lemma x_C48_extend_strings_ex : exists w0 v, @text_from env_debug w_start v w0 [] /\ vcap v = 0 /\
  (exists w l, @all_from env_debug w0 l w [[97; 233; 122]; [98; 8364]]).
Proof.
  exists (snd (@tdemo env_debug w_start [])), (fst (@tdemo env_debug w_start [])).
  assert (@text_from env_debug w_start (fst (@tdemo env_debug w_start [])) (snd (@tdemo env_debug w_start [])) []) as H0.
  { apply tdemo_text; [apply w_start_ok|by vm_compute|by vm_compute|by args|by args|by args|by vm_compute]. }
  split; [done|]. split; [by vm_compute|].
  assert (@text_from env_debug (snd (@tdemo env_debug w_start []))
    (fst (@tdemo env_debug (snd (@tdemo env_debug w_start [])) tops1))
    (snd (@tdemo env_debug (snd (@tdemo env_debug w_start [])) tops1)) [97; 233; 122]) as H1.
  { apply tdemo_text; [|by vm_compute|by vm_compute|by args|by args|by args|by vm_compute].
    destruct (text_from_rep _ _ _ _ H0) as [H _]. by eapply strep_wok. }
  eexists _, [_; _]. econstructor; [exact H1|]. econstructor; [|constructor].
  eapply (tdemo_text _ tops2); [|by vm_compute|by vm_compute|by args|by args|by args|by vm_compute].
  destruct (text_from_rep _ _ _ _ H1) as [H _]. by eapply strep_wok.
Qed.
(** Boxed texts: boxes that own exactly full strings made one after the other.  None of them may be empty, unless
    the allocator never refuses. *)
Lemma p_C48_extend_boxes_partial : forall (EN : Env) (w00 : world N) v w0 cs l w css,
  text_from w00 v w0 cs -> all_from w0 (str_from_box <$> l) w css ->
  (refuses -> Forall (fun cs => cs <> []) css) -> tlen cs + tlen (concat css) <= isize_max ->
  exists r v' w' cs' bs, str_extend_boxes l (v, w) = (r, (v', w')) /\
    appended refuses cs css r cs' /\ vec_as_slice v' w' = (Ret bs, w') /\ text cs' bs /\
    delete_ptr (vdata v') (heap w') = heap w00.
Proof.
  intros EN w00 v w0 cs l w css Hv Hl Hne Hf. destruct (text_from_rep _ _ _ _ Hv) as [Hs0 Hh0].
  destruct (all_from_owned _ _ _ _ Hl) as [Ho Hold]. destruct (Hold _ _ Hs0) as [Hs Ha].
  destruct (extend_boxes_ok l w v cs css Hs Ho Ha Hne Hf) as (r&v'&w'&pre&post&He&Hcss&(bs&Ht&Hr)&Hm&Hcase).
  exists r, v', w', (cs ++ concat pre), bs. split; [done|]. split; [by exists pre, post|].
  split; [by apply (as_slice_ok z8)|]. split; [done|].
  change (vrest v' w' = heap w00). rewrite Hm. unfold vrest. rewrite minus_delete, (minus_all _ _ _ _ Hl).
  exact Hh0.
Qed.
Lemma x_C48_extend_boxes_ex : exists b w, @all_from env_debug (snd t1) (str_from_box <$> [b]) w [[98; 8364]].
Proof.
  exists (v_ptr (fst t2)), (snd t2). econstructor; [|constructor].
  assert (str_from_box (v_ptr (fst t2)) = fst t2) as -> by by vm_compute. apply t2_text.
Qed.
(** When the allocator refuses, the boxes not yet taken are dropped; dropping an empty one is undefined (C25). *)
Lemma p_C48_boxes_refuted : exists (EN : Env) (w00 : world N) v w0 cs l w css,
  text_from w00 v w0 cs /\ all_from w0 (str_from_box <$> l) w css /\
  tlen cs + tlen (concat css) <= isize_max /\
  fst (str_extend_boxes l (v, w)) = UB Dangling_access.
Proof.
  pose (EN := env_refusing 2).
  assert (@text_from EN w_start (fst (@tdemo EN w_start tops2)) (snd (@tdemo EN w_start tops2)) [98; 8364]) as H1.
  { apply tdemo_text; [apply w_start_ok|by vm_compute|by vm_compute|by args|by args|by args|by vm_compute]. }
  pose (w1 := snd (@tdemo EN w_start tops2)).
  assert (@text_from EN w1 (fst (@tdemo EN w1 tops2)) (snd (@tdemo EN w1 tops2)) [98; 8364]) as H2.
  { apply tdemo_text; [|by vm_compute|by vm_compute|by args|by args|by args|by vm_compute].
    destruct (text_from_rep _ _ _ _ H1) as [H _]. by eapply strep_wok. }
  pose (w2 := snd (@tdemo EN w1 tops2)).
  assert (@text_from EN w2 (fst (@tdemo EN w2 [])) (snd (@tdemo EN w2 [])) []) as H3.
  { apply tdemo_text; [|by vm_compute|by vm_compute|by args|by args|by args|by vm_compute].
    destruct (text_from_rep _ _ _ _ H2) as [H _]. by eapply strep_wok. }
  exists EN, w_start, (fst (@tdemo EN w_start tops2)), w1, [98; 8364],
    [v_ptr (fst (@tdemo EN w1 tops2)); v_ptr (fst (@tdemo EN w2 []))], (snd (@tdemo EN w2 [])), [[98; 8364]; []].
  split; [done|]. split.
  - econstructor.
    + assert (str_from_box (v_ptr (fst (@tdemo EN w1 tops2))) = fst (@tdemo EN w1 tops2)) as -> by by vm_compute.
      exact H2.
    + econstructor; [|constructor].
      assert (str_from_box (v_ptr (fst (@tdemo EN w2 []))) = fst (@tdemo EN w2 [])) as -> by by vm_compute.
      exact H3.
  - split; [by vm_compute|by vm_compute].
Qed.
(** Collecting: texts, and strings made on demand. *)
Lemma p_C48_collect_strs : forall (EN : Env) (w : world N) it,
  wok w -> (forall ds, Some ds ∈ it -> Forall scalar ds) ->
  foldr (fun o n => from_option tlen 0 o + n) 0 it <= isize_max ->
  exists r w', str_collect (str_extend_strs (option_map encode_all <$> it)) w = (r, w') /\
  ((exists v cs bs, r = Ret v /\ appended_it refuses [] it (Ret tt) cs /\
      vec_as_slice v w' = (Ret bs, w') /\ text cs bs /\ delete_ptr (vdata v) (heap w') = heap w) \/
   (exists p cs, r = Panic p /\ appended_it refuses [] it (Panic p) cs /\ heap w' = heap w)).
Proof.
  intros EN w it Hw Hsc Hf.
  destruct (str_collect_ok (str_extend_strs (option_map encode_all <$> it)) w
    (appended_it refuses [] it) Hw) as (r&w'&He&Hcase).
  { intros w1 v Hs Hc0 _.
    destruct (extend_strs_ok it w1 v [] Hs Hsc) as (r&v'&w'&dss&He&Hs'&Haf&_&_&Hcase); [simpl; lia|].
    exists r, v', w', (concat dss). split; [done|]. split; [done|]. split; [by apply af_rest|]. split.
    - exists dss. destruct Hcase as [(->&->)|[(->&post&->)|(->&Hrf&c&post&->)]].
      + exists []. rewrite app_nil_r. auto.
      + exists (None :: post). split; [done|]. split; [done|]. right. left. eauto.
      + exists (Some c :: post). split; [done|]. split; [done|]. right. right. split; [done|]. split; [done|]. right. by eexists _, _.
    - destruct Hcase as [(->&_)|[(->&_)|(->&_)]]; eauto. }
  exists r, w'. split; [done|]. destruct Hcase as [(v&cs&->&HP&(bs&Ht&Hr)&Hv)|?]; [left|by right].
  exists v, cs, bs. split; [done|]. split; [done|]. split; [by apply (as_slice_ok z8)|]. done.
Qed.
Lemma x_C48_collect_strs_ex : wok w_start /\
  (exists v, fst (@str_collect env_debug (str_extend_strs (EN:=env_debug) (option_map encode_all <$> [Some [233]; Some [97; 98]])) w_start) = Ret v).
Proof. split; [apply w_start_ok|]. eexists. vm_compute. reflexivity. Qed.
Lemma p_C48_collect_strings : forall (EN : Env) (w : world N) dss,
  wok w -> Forall (Forall scalar) dss -> foldr (fun ds n => tlen ds + n) 0 dss <= isize_max ->
  exists r w', str_collect (str_extend_built (encode_all <$> dss)) w = (r, w') /\
  ((exists v bs, r = Ret v /\ vec_as_slice v w' = (Ret bs, w') /\ text (concat dss) bs /\
      delete_ptr (vdata v) (heap w') = heap w) \/
   (r = Panic PUnwrap /\ refuses /\ heap w' = heap w)).
Proof.
  intros EN w dss Hw Hsc Hf.
  destruct (str_collect_ok (str_extend_built (encode_all <$> dss)) w
    (fun r cs => (r = Ret tt /\ cs = concat dss) \/ (r = Panic PUnwrap /\ refuses)) Hw) as (r&w'&He&Hcase).
  { intros w1 v Hs Hc0 _.
    destruct (extend_built_ok dss w1 v [] Hs Hsc) as (r&v'&w'&pre&post&He&Hd&Hs'&Hv&_&Hcase); [simpl; lia|].
    exists r, v', w', (concat pre). split; [done|]. split; [done|]. split; [done|].
    destruct Hcase as [(->&->)|(->&Hrf&_)].
    - rewrite app_nil_r in Hd. subst. auto.
    - split; [by right|]. right. by eexists. }
  exists r, w'. split; [done|].
  destruct Hcase as [(v&cs&->&[(_&->)|[? _]]&(bs&Ht&Hr)&Hv)|(p&cs&->&[[? _]|[Hp ?]]&?)]; try done.
  - left. exists v, bs. split; [done|]. split; [by apply (as_slice_ok z8)|]. done.
  - injection Hp as ->. by right.
Qed.
Lemma x_C48_collect_strings_ex : wok w_start /\ Forall (Forall scalar) [[233]; [97; 98]] /\
  (exists v, fst (@str_collect env_debug (str_extend_built (EN:=env_debug) (encode_all <$> [[233]; [97; 98]])) w_start) = Ret v).
Proof. split; [apply w_start_ok|]. split; [by args|]. eexists. vm_compute. reflexivity. Qed.
(** [+] and [+=]. *)
Lemma p_C48_add : forall (EN : Env) (w0 : world N) v w cs ds,
  text_from w0 v w cs -> Forall scalar ds -> tlen cs + tlen ds <= isize_max ->
  exists r w', str_add v (encode_all ds) w = (r, w') /\
  ((exists v' bs, r = Ret v' /\ vec_as_slice v' w' = (Ret bs, w') /\ text (cs ++ ds) bs /\
      delete_ptr (vdata v') (heap w') = heap w0) \/
   (r = Panic PUnwrap /\ refuses /\ heap w' = heap w0)).
Proof.
  intros EN w0 v w cs ds Hv Hsc Hf. destruct (text_from_rep _ _ _ _ Hv) as [Hs Hh].
  destruct (str_add_ok w v cs ds (encode_all ds) Hs) as (r&w'&He&Hcase); [by apply text_encode|done|].
  exists r, w'. split; [done|]. destruct Hcase as [(v'&->&(bs&Ht&Hr)&Haf)|(->&?&Hg)].
  - left. exists v', bs. split; [done|]. split; [by apply (as_slice_ok z8)|]. split; [done|].
    rewrite <-Hh. by apply af_rest.
  - right. split; [done|]. split; [done|]. by rewrite Hg.
Qed.
Lemma x_C48_add_ex : @text_from env_debug w_start (fst t1) (snd t1) [97; 233; 122] /\ Forall scalar [8364].
Proof. split; [apply t1_text|by args]. Qed.
