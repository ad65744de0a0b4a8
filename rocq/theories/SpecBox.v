(** What programs with boxes should do: a box is a cell. *)
From Verif Require Export BoxModel.

Section box_spec.
  Context {T A : Type} `{!Ordered T, !Iter T A, !Hashing T}.
  Notation obs := (bobs T A).
  (** A box: its marker and its value; [None] once it is dropped. *)
  Notation cells := (list (option (marker * T))).

  Definition on_cell (i : nat) (cs : cells) (k : marker -> T -> obs * T) : obs * cells :=
    match cs !! i with
    | Some (Some (m, x)) => let '(o, y) := k m x in (o, <[i := Some (m, y)]> cs)
    | _ => (BIll, cs)
    end.
  Definition on_cells (i j : nat) (cs : cells) (k : T -> T -> obs) : obs * cells :=
    match cs !! i, cs !! j with
    | Some (Some (_, x)), Some (Some (_, y)) => (k x y, cs)
    | _, _ => (BIll, cs)
    end.

  (** Result, cells and destroyed values of a call other than a refused [BNew]. *)
  Definition bspec (op : bop T) (cs : cells) : obs * cells * list T :=
    match op with
    | BNew x m => (BDone, cs ++ [Some (m, x)], [])
    | BRead i => (on_cell i cs (fun _ x => (BGot x, x)), [])
    | BReplace i y => (on_cell i cs (fun _ x => (BGot x, y)), [])
    | BEq i j => (on_cells i j cs (fun x y => BBool (t_eq x y)), [])
    | BPartialCmp i j => (on_cells i j cs (fun x y => BOrd (t_partial_cmp x y)), [])
    | BCmp i j => (on_cells i j cs (fun x y => BOrd (Some (t_cmp x y))), [])
    | BHash i => (on_cell i cs (fun _ x => (BWords (t_hash x), x)), [])
    | BDebug i => (on_cell i cs (fun _ x => (BWords (t_debug x), x)), [])
    | BDisplay i => (on_cell i cs (fun _ x => (BWords (t_display x), x)), [])
    | BNext i => (on_cell i cs (fun _ x => (BItem (fst (iter_next x)), snd (iter_next x))), [])
    | BSizeHint i => (on_cell i cs (fun _ x => (BHint (iter_size_hint x), x)), [])
    | BNth i n => (on_cell i cs (fun _ x => (BItem (fst (iter_nth n x)), snd (iter_nth n x))), [])
    | BNextBack i => (on_cell i cs (fun _ x => (BItem (fst (iter_next_back x)), snd (iter_next_back x))), [])
    | BNthBack i n => (on_cell i cs (fun _ x => (BItem (fst (iter_nth_back n x)), snd (iter_nth_back n x))), [])
    | BLen i => (on_cell i cs (fun _ x => (BNum (iter_len x), x)), [])
    | BFinish i => (on_cell i cs (fun _ x => (BNum (h_finish x), x)), [])
    | BWrite i l => (on_cell i cs (fun _ x => (BDone, h_write l x)), [])
    | BMarker i => (on_cell i cs (fun m x => (BMark m, x)), [])
    | BDrop i =>
        match cs !! i with
        | Some (Some (_, x)) => (BDone, <[i := None]> cs, [x])
        | _ => (BIll, cs, [])
        end
    end.

  (** A history with its results, the cells at the end and the values destroyed, in order.  A [BNew] may be
      refused: it panics, its value is destroyed, nothing else changes. *)
  Inductive btrace : cells -> list (bop T) -> list (res obs) -> cells -> list T -> Prop :=
  | bt_nil cs : btrace cs [] [] cs []
  | bt_call cs op o cs1 d ops outs cs2 ds :
      bspec op cs = (o, cs1, d) -> btrace cs1 ops outs cs2 ds ->
      btrace cs (op :: ops) (Ret o :: outs) cs2 (d ++ ds)
  | bt_refused cs x m p ops outs cs2 ds :
      p = PUnwrap \/ p = PNoEnv -> btrace cs ops outs cs2 ds ->
      btrace cs (BNew x m :: ops) (Panic p :: outs) cs2 (x :: ds).
End box_spec.
