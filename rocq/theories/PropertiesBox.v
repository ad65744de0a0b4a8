(** Property C85: programs with boxes. *)
From Verif Require Import BoxFacts.

(** Every program that makes, reads, changes, compares, hashes, prints, iterates and drops boxes of a type without drop
    glue does call by call what cells do; its values are destroyed when their boxes are dropped; when all boxes
    are dropped all their memory is released. *)
Theorem C85_boxes : forall (EN : Env) (T A : Type) (EL : Elem T) (OR : Ordered T) (IT : Iter T A) (HA : Hashing T)
    (w0 : world T) ops,
  0 < t_size -> t_needs_drop = false -> (forall x : T, t_drop_panics x = false) ->
  (forall b, next_id w0 <= b -> heap w0 !! b = None) ->
  exists outs tab w cs ds, brun (A:=A) ops ([], w0) = (outs, (tab, w)) /\ length outs = length ops /\
    btrace [] ops outs cs ds /\ drops w = drops w0 ++ ds /\
    (Forall (eq None) cs -> heap w = heap w0) /\
    ((forall n k, e_aok n k = true) -> is_Some (cur_scope w0) -> Forall (fun r => exists o, r = Ret o) outs).
Proof. exact p_C85_boxes. Qed.
Print Assumptions C85_boxes.

Example C85_boxes_ex :
  0 < @t_size N num /\ @t_needs_drop N num = false /\ (forall x : N, @t_drop_panics N num x = false) /\
  (forall b, next_id w_start <= b -> heap w_start !! b = None) /\
  let ops := [BNew 5 MNone; BNew 7 (MType 3); BCmp 0 1; BNext 0; BRead 0; BNth 1 2; BReplace 1 4; BEq 0 1; BMarker 1;
              BWrite 0 [1; 2]; BHash 0; BDebug 1; BDisplay 0; BDrop 0; BRead 0; BDrop 1] in
  fst (@brun env_debug N N num num_ordered num_iter num_hashing ops ([], w_start))
  = [Ret BDone; Ret BDone; Ret (BOrd (Some Lt)); Ret (BItem (Some 5)); Ret (BGot 4); Ret (BItem (Some 5)); Ret (BGot 4);
     Ret (BBool true); Ret (BMark (MType 3)); Ret BDone; Ret (BWords [6]);
     Ret (BWords [52]); Ret (BWords [70]); Ret BDone; Ret BIll; Ret BDone] /\
  drops (snd (snd (@brun env_debug N N num num_ordered num_iter num_hashing ops ([], w_start)))) = drops w_start ++ [6; 4].
Proof. exact x_C85_boxes_ex. Qed.
