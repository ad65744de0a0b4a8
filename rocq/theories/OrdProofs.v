(** Order of what is known. *)
From Verif Require Export SpecOrd.
From Coq Require Import ZifyBool ZifyNat ZifyN.

(** ** Views *)
Definition vle (v1 v2 : view) : Prop :=
  (v_strong v1 <= v_strong v2)%nat /\ (v_weak v1 <= v_weak v2)%nat /\ v_seen v1 ⊆ v_seen v2.

Lemma vle_refl v : vle v v. Proof. by repeat split. Qed.
Lemma vle_trans v1 v2 v3 : vle v1 v2 -> vle v2 v3 -> vle v1 v3.
Proof. intros (?&?&?) (?&?&?). split; [lia|]. split; [lia|set_solver]. Qed.
Lemma vjoin_l v1 v2 : vle v1 (vjoin v1 v2).
Proof. unfold vle, vjoin. simpl. split; [lia|]. split; [lia|set_solver]. Qed.
Lemma vjoin_r v1 v2 : vle v2 (vjoin v1 v2).
Proof. unfold vle, vjoin. simpl. split; [lia|]. split; [lia|set_solver]. Qed.
Lemma vjoin_lub v1 v2 v : vle v1 v -> vle v2 v -> vle (vjoin v1 v2) v.
Proof. unfold vle, vjoin. simpl. intros (?&?&?) (?&?&?). split; [lia|]. split; [lia|set_solver]. Qed.
Lemma v_at_le l n v : vle v (v_at l n v).
Proof. destruct l; unfold vle; simpl; (split; [lia|]); (split; [lia|done]). Qed.
Lemma v_at_mono l n v1 v2 : vle v1 v2 -> vle (v_at l n v1) (v_at l n v2).
Proof. destruct l; unfold vle; simpl; intros (?&?&?); (split; [lia|]); (split; [lia|done]). Qed.
Lemma v_at_lub l n v V : vle v V -> (n <= v_pos l V)%nat -> vle (v_at l n v) V.
Proof. destruct l; unfold vle; simpl; intros (?&?&?) ?; (split; [lia|]); (split; [lia|done]). Qed.
Lemma v_at_pos l n v : (n <= v_pos l (v_at l n v))%nat.
Proof. destruct l; simpl; lia. Qed.
Lemma v_none_le v : vle v_none v.
Proof. unfold vle. simpl. split; [lia|]. split; [lia|set_solver]. Qed.
Lemma vle_pos l v1 v2 : vle v1 v2 -> (v_pos l v1 <= v_pos l v2)%nat.
Proof. intros (?&?&?). by destruct l. Qed.
#[global] Hint Resolve vle_refl vjoin_l vjoin_r v_at_le v_none_le : vv.
