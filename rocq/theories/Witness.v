(** Concrete environments, element types and worlds used to show that the hypotheses of the
    property theorems can be met and as witnesses of the refuted properties. *)
From Verif Require Export VecGrow.
From Coq Require Import ZifyBool ZifyNat ZifyN.

(** Debug build, and release build; every library precondition counts in the first.  The selected
    allocator depends on the scope and on whether there is a marker. *)
Definition pick (s : N) (sel : selector) : N :=
  match sel_marker sel with MNone => s | MType a => 100 + s + a end.
Definition env_debug : Env :=
  {| e_profile := {| e_checks := true; e_strict := true |};
     e_aok := fun _ _ => true; e_alloc_for := pick |}.
Definition env_release : Env :=
  {| e_profile := {| e_checks := false; e_strict := false |};
     e_aok := fun _ _ => true; e_alloc_for := pick |}.
(** The allocator refuses every call from the [k]-th on. *)
Definition env_refusing (k : nat) : Env :=
  {| e_profile := {| e_checks := true; e_strict := true |};
     e_aok := fun n _ => Nat.ltb n k; e_alloc_for := pick |}.

(** Numbers of eight bytes without a destructor; with one; with one that panics on 13. *)
Definition num : Elem N :=
  {| t_size := 8; t_align := 8; t_name := 1; t_needs_drop := false;
     t_drop_panics := fun _ => false; t_clone := Some; t_zst := 0; t_align_pos := eq_refl |}.
Definition num_drop : Elem N :=
  {| t_size := 8; t_align := 8; t_name := 2; t_needs_drop := true;
     t_drop_panics := fun _ => false; t_clone := Some; t_zst := 0; t_align_pos := eq_refl |}.
Definition num_bomb : Elem N :=
  {| t_size := 8; t_align := 8; t_name := 3; t_needs_drop := true;
     t_drop_panics := fun x => x =? 13; t_clone := fun x => if x =? 13 then None else Some x;
     t_zst := 0; t_align_pos := eq_refl |}.
(** A zero-sized type. *)
Definition zst : Elem unit :=
  {| t_size := 0; t_align := 1; t_name := 4; t_needs_drop := true;
     t_drop_panics := fun _ => false; t_clone := Some; t_zst := tt; t_align_pos := eq_refl |}.

(** A world with scope 7 current and one foreign block. *)
Definition w_start : world N :=
  World {[ 0 := Block 5 (Layout 16 8) [Some 1; Some 2] ]} 1 0 [] [] (Some 7).
Definition wz_start : world unit := World ∅ 0 0 [] [] (Some 7).

Lemma w_start_ok : wok w_start.
Proof.
  split; [by eexists|]. intros b Hb. simpl in *. rewrite lookup_singleton_ne; [done|]. lia.
Qed.

Definition definedb {A} (r : res A) : bool := match r with Ret _ | Panic _ => true | _ => false end.
Lemma definedb_ok {A} (l : list (res A)) : forallb definedb l = true -> Forall defined l.
Proof.
  induction l as [|r l IH]; intros H; constructor; simpl in H; apply andb_prop in H as [H1 H2].
  - destruct r; try done; [left|right]; by eexists.
  - by apply IH.
Qed.

(** Runs a history on a new vector, for examples. *)
Definition demo_outs {EN : Env} {T} {EL : Elem T} (w : world T) (ops : list (vop T))
  : list (res (vret T)) :=
  match vec_new w with
  | (Ret v, w1) => fst (vrun ops (v, w1))
  | _ => []
  end.
Definition demo {EN : Env} {T} {EL : Elem T} (w : world T) (ops : list (vop T)) : vec * world T :=
  match vec_new w with
  | (Ret v, w1) => snd (vrun ops (v, w1))
  | (_, w1) => (Vec (sp_dangling 0 MNone) 0, w1)
  end.
Lemma demo_reached {EN : Env} {T} {EL : Elem T} (w : world T) ops xs :
  wok w -> forallb definedb (demo_outs w ops) = true -> N.max (2 * total_demand ops) 8 * t_size <=? limit = true ->
  fst (vec_as_slice (fst (demo w ops)) (snd (demo w ops))) = Ret xs ->
  snd (vec_as_slice (fst (demo w ops)) (snd (demo w ops))) = snd (demo w ops) ->
  reached (fst (demo w ops)) (snd (demo w ops)) xs.
Proof.
  intros Hw Hp Hf Ha Hb. unfold demo, demo_outs in *. pose proof Hw as [[sc Hs] _].
  unfold vec_new, vec_with_marker, alloc_for, bind in *.
  rewrite Hs in *. simpl in *. destruct (vrun ops _) as [outs [v w']] eqn:E. simpl in *.
  exists w. eexists _, _, ops, outs. split_and!; try done.
  - by apply N.leb_le.
  - unfold vec_new, vec_with_marker, alloc_for, bind. rewrite Hs. reflexivity.
  - by apply definedb_ok.
  - destruct (vec_as_slice v w') as [r w2]. simpl in *. by subst.
Qed.

(** A vector holding 1, 2, 3 with room for more, in a debug build. *)
Definition ops123 : list (vop N) := [OPush 1; OPush 2; OInsert 1 9; ORemove 1; OPush 3; OReserve 2].
Notation v123 EN EL := (fst (@demo EN N EL w_start ops123)).
Notation w123 EN EL := (snd (@demo EN N EL w_start ops123)).
Lemma reached123 : @reached env_debug N num (v123 env_debug num) (w123 env_debug num) [1; 2; 3].
Proof. by apply demo_reached; [apply w_start_ok|..]; vm_compute. Qed.
Lemma reached123_drop :
  @reached env_debug N num_drop (v123 env_debug num_drop) (w123 env_debug num_drop) [1; 2; 3].
Proof. by apply demo_reached; [apply w_start_ok|..]; vm_compute. Qed.
Lemma reached123_release :
  @reached env_release N num_drop (v123 env_release num_drop) (w123 env_release num_drop) [1; 2; 3].
Proof. by apply demo_reached; [apply w_start_ok|..]; vm_compute. Qed.
