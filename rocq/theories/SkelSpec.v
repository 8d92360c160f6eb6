(** Specification for skeletons. *)
From Verif Require Import Bytes Ssbh Formats Strings AnimComp AnimBuf AnimSpec SmallData DataSpec SkelData.

(** The ancestors of a bone, nearest first.  The chain ends at a bone without parent or with a
    parent index outside the skeleton. *)
Inductive ancestors (bones : list bone) : bone -> list bone -> Prop :=
| anc_root b : bn_parent b = None -> ancestors bones b []
| anc_outside b i : bn_parent b = Some i -> nth_error bones (Z.to_nat i) = None -> ancestors bones b []
| anc_parent b i p l : bn_parent b = Some i -> nth_error bones (Z.to_nat i) = Some p -> ancestors bones p l ->
    ancestors bones b (p :: l).

(** root * (... * (grandparent * (parent * bone))) *)
Definition product (mul : mat -> mat -> mat) (b : bone) (l : list bone) : mat :=
  fold_right (fun p m => mul (bn_transform p) m) (bn_transform b) (rev l).

Definition parents_ok (bones : list bone) : bool :=
  forallb (fun b => match bn_parent b with Some i => 0 <=? i | None => true end) bones.

Definition mat_ok (m : mat) : bool := vec4_ok (col1 m) && vec4_ok (col2 m) && vec4_ok (col3 m) && vec4_ok (col4 m).
(** The parent index is stored with 16 bits, negative meaning none. *)
Definition bone_ok (b : bone) : bool :=
  text_ok (bn_name b) && mat_ok (bn_transform b) &&
  match bn_parent b with Some i => (0 <=? i) && (i <? 2 ^ 15) | None => true end &&
  existsb (Z.eqb (bn_billboard b)) [0; 1; 2; 3; 4; 6; 8].
Definition bones_ok (bones : list bone) : bool := (zlen bones <? 2 ^ 64) && forallb bone_ok bones.

(** ** Exact matrices with integer entries: [m i j] is row [i] of column [j], indices below 4 *)
Definition zmat := list (list Z).
Definition entry (m : zmat) (row col : nat) : Z := nth row (nth col m []) 0.
Definition zmul (a b : zmat) : zmat :=
  map (fun j => map (fun i => entry a i 0 * entry b 0 j + entry a i 1 * entry b 1 j +
                              entry a i 2 * entry b 2 j + entry a i 3 * entry b 3 j) (seq 0 4)) (seq 0 4).
Definition zone : zmat := [[1; 0; 0; 0]; [0; 1; 0; 0]; [0; 0; 1; 0]; [0; 0; 0; 1]].
Definition is_zmat (m : zmat) : Prop := length m = 4%nat /\ Forall (fun c => length c = 4%nat) m.
