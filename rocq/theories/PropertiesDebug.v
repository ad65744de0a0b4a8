(** Property C116: what formatting a container shows. *)
From Verif Require Import DebugFacts.

(** [Debug] of a [Vec] lists what its elements write, in order. *)
Theorem C116_vec_partial : forall (EN : Env) (T : Type) (EL : Elem T) (dbg : T -> list N) v (w : world T) xs,
  0 < t_size -> reached v w xs -> vec_fmt_debug dbg v w = (Ret (listing dbg xs), w).
Proof. exact p_C116_vec_partial. Qed.
Print Assumptions C116_vec_partial.

(** The same for [SmallVec], inline and on the heap. *)
Theorem C116_small_partial : forall (EN : Env) (T : Type) (EL : Elem T) (Cap : N) (dbg : T -> list N) s (w : world T) xs,
  0 < t_size -> sreached Cap s w xs -> sv_fmt_debug dbg s w = (Ret (listing dbg xs), w).
Proof. exact p_C116_small_partial. Qed.
Print Assumptions C116_small_partial.

Example C116_list_ex :
  @reached env_debug N num_drop (v123 env_debug num_drop) (w123 env_debug num_drop) [1; 2; 3] /\
  fst (@vec_fmt_debug N num_drop (fun n => [48 + n]) (v123 env_debug num_drop) (w123 env_debug num_drop)) =
    Ret [91; 49; 44; 32; 50; 44; 32; 51; 93] /\
  @sreached env_debug N num_drop 4 (fst (sin env_debug num_drop)) (snd (sin env_debug num_drop)) [1; 2; 3] /\
  fst (@sv_fmt_debug N num_drop (fun n => [48 + n]) (fst (sin env_debug num_drop)) (snd (sin env_debug num_drop))) =
    Ret [91; 49; 44; 32; 50; 44; 32; 51; 93].
Proof. exact x_C116_list_ex. Qed.

(** [Display] of a [String] writes its text. *)
Theorem C116_display_partial : forall (EN : Env) (w0 : world N) v w cs, text_from w0 v w cs ->
  exists bs, text cs bs /\ str_fmt_display v w = (Ret bs, w).
Proof. exact p_C116_display_partial. Qed.
Print Assumptions C116_display_partial.

(** [Debug] of a [String] is to write its literal; it writes the bare text instead, which is
    never that literal. *)
Theorem C116_debug_refuted : forall (EN : Env) (printable : N -> bool) (w0 : world N) v w cs,
  text_from w0 v w cs ->
  exists bs, text cs bs /\ str_fmt_debug v w = (Ret bs, w) /\ ~ literal printable cs bs.
Proof. exact p_C116_debug_refuted. Qed.
Print Assumptions C116_debug_refuted.

Example C116_debug_ex : @text_from env_debug w_start (fst t1) (snd t1) [97; 233; 122] /\
  fst (str_fmt_debug (fst t1) (snd t1)) = Ret [97; 195; 169; 122] /\
  literal (fun c => c <? 128) [97; 233; 122] [34; 97; 92; 117; 123; 101; 57; 125; 122; 34].
Proof. exact x_C116_debug_ex. Qed.
