(** Proofs of the statements collected in PropertiesDebug.v: what formatting shows. *)
From Verif Require Export DebugModel SpecDebug StrFacts SmallFacts.
From Coq Require Import ZifyBool ZifyNat ZifyN.

Lemma slice_debug_ok {T} (dbg : T -> list N) xs : slice_debug dbg xs = listing dbg xs.
Proof.
  unfold slice_debug, listing. do 2 f_equal.
  assert (forall x xs, debug_entries dbg true (x :: xs) = joined (dbg <$> (x :: xs))) as H.
  { intros x l. revert x. induction l as [|y l IH]; intros x.
    - simpl. by rewrite app_nil_r.
    - change (dbg x ++ [44; 32] ++ debug_entries dbg true (y :: l) =
              dbg x ++ [44; 32] ++ joined (dbg <$> (y :: l))). by rewrite IH. }
  destruct xs; [done|apply H].
Qed.

Lemma escaped_len p c e bs : escaped p c e -> utf8 c bs -> (length bs <= length e)%nat.
Proof.
  intros He Hu. destruct He as [c l Hin|c e _ _ He|c _ _].
  - assert (ulen c = 1) as Hl. { simpl in Hin. by destruct_or! Hin; simplify_eq. }
    apply utf8_len in Hu. rewrite Hl in Hu. simpl. clear -Hu. lia.
  - by rewrite (utf8_fun _ _ _ He Hu).
  - inversion Hu; rewrite !app_length; simpl; clear; lia.
Qed.
Lemma literal_longer p cs es bs : Forall2 (escaped p) cs es -> text cs bs -> (length bs <= length (concat es))%nat.
Proof.
  intros He. revert bs. induction He as [|c e cs es H1 _ IH]; intros bs Ht; inversion Ht as [|c' cs' b bs' Hu Ht']; subst; [done|].
  simpl. rewrite !app_length. pose proof (escaped_len _ _ _ _ H1 Hu). specialize (IH _ Ht').
  apply Nat.add_le_mono; done.
Qed.

(** * C116 *)

(** [Debug] of a [Vec] lists what its elements write, in order. *)
Lemma p_C116_vec_partial : forall (EN : Env) (T : Type) (EL : Elem T) (dbg : T -> list N) v (w : world T) xs,
  0 < t_size -> reached v w xs -> vec_fmt_debug dbg v w = (Ret (listing dbg xs), w).
Proof.
  intros EN T EL dbg v w xs Hz Hre. unfold vec_fmt_debug.
  erewrite bind_Ret by (apply (as_slice_ok Hz); by apply (reached_rep Hz)). by rewrite <-slice_debug_ok.
Qed.
(** The same for [SmallVec], inline and on the heap. *)
Lemma p_C116_small_partial : forall (EN : Env) (T : Type) (EL : Elem T) (Cap : N) (dbg : T -> list N) s (w : world T) xs,
  0 < t_size -> sreached Cap s w xs -> sv_fmt_debug dbg s w = (Ret (listing dbg xs), w).
Proof.
  intros EN T EL Cap dbg s w xs Hz Hre. destruct (sreached_srep Cap Hz _ _ _ Hre) as [Hr _].
  unfold sv_fmt_debug. erewrite bind_Ret by (by apply (slice_sok Cap Hz)). by rewrite <-slice_debug_ok.
Qed.
Lemma x_C116_list_ex :
  @reached env_debug N num_drop (v123 env_debug num_drop) (w123 env_debug num_drop) [1; 2; 3] /\
  fst (@vec_fmt_debug N num_drop (fun n => [48 + n]) (v123 env_debug num_drop) (w123 env_debug num_drop)) =
    Ret [91; 49; 44; 32; 50; 44; 32; 51; 93] /\
  @sreached env_debug N num_drop 4 (fst (sin env_debug num_drop)) (snd (sin env_debug num_drop)) [1; 2; 3] /\
  fst (@sv_fmt_debug N num_drop (fun n => [48 + n]) (fst (sin env_debug num_drop)) (snd (sin env_debug num_drop))) =
    Ret [91; 49; 44; 32; 50; 44; 32; 51; 93].
Proof. split; [apply reached123_drop|]. split; [by vm_compute|]. split; [apply sin_reached|by vm_compute]. Qed.

(** [Display] of a [String] writes its text. *)
Lemma p_C116_display_partial : forall (EN : Env) (w0 : world N) v w cs, text_from w0 v w cs ->
  exists bs, text cs bs /\ str_fmt_display v w = (Ret bs, w).
Proof.
  intros EN w0 v w cs [(bs&Ht&Hr) _]%text_from_rep. exists bs. split; [done|]. by apply (as_slice_ok z8).
Qed.
(** [Debug] of a [String] is to write its literal; it writes the bare text instead, which is
    never that literal. *)
Lemma p_C116_debug_refuted : forall (EN : Env) (printable : N -> bool) (w0 : world N) v w cs,
  text_from w0 v w cs ->
  exists bs, text cs bs /\ str_fmt_debug v w = (Ret bs, w) /\ ~ literal printable cs bs.
Proof.
  intros EN p w0 v w cs [(bs&Ht&Hr) _]%text_from_rep. exists bs. split; [done|].
  split; [by apply (as_slice_ok z8)|]. intros (es&He&Ho). pose proof (literal_longer _ _ _ _ He Ht) as Hl.
  rewrite Ho in Hl. rewrite !app_length in Hl. simpl in Hl. clear -Hl. lia.
Qed.
Lemma x_C116_debug_ex : @text_from env_debug w_start (fst t1) (snd t1) [97; 233; 122] /\
  fst (str_fmt_debug (fst t1) (snd t1)) = Ret [97; 195; 169; 122] /\
  literal (fun c => c <? 128) [97; 233; 122] [34; 97; 92; 117; 123; 101; 57; 125; 122; 34].
Proof.
  split; [apply t1_text|]. split; [by vm_compute|].
  exists [[97]; [92; 117; 123; 101; 57; 125]; [122]]. split; [|done].
  assert (forall c, c = 97 \/ c = 233 \/ c = 122 -> ~ In c (fst <$> specials)) as H.
  { intros c Hc Hi. simpl in Hi. by destruct_or! Hc; subst; destruct_or! Hi. }
  constructor; [apply esc_plain; [apply H; auto|done|by apply utf8_1]|].
  constructor; [apply (esc_code _ 233); [apply H; auto|done]|].
  constructor; [apply esc_plain; [apply H; auto|done|by apply utf8_1]|constructor].
Qed.
