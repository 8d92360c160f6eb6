(** Specification for the cost of reading. *)
From Verif Require Import Bytes Ssbh File MeshEx AnimBuf VecData MeshData MeshSpec Work.

(** The least number of bytes a value of the type occupies where it stands *)
Fixpoint least (t : ty) : Z :=
  match t with
  | TInt w | TRepr w _ _ | TBits w | TAbs w _ => w
  | TUnit => 0
  | TStruct fs _ _ _ => fold_right (fun f n => least (fst f) + n) 0 fs
  | TRel _ => 8
  | TArr _ | TBuf | TEnum _ => 16
  | TCStr _ => 1
  | TFix n t' => n * least t'
  | TVec _ _ => 0
  end.

(** Types whose reader cannot be kept busy by a count alone: elements of arrays and vectors
    are not empty, sizes and paddings are not negative. *)
Fixpoint sane (t : ty) : bool :=
  match t with
  | TInt w | TRepr w _ _ | TBits w => 0 <? w
  | TUnit | TBuf | TCStr _ => true
  | TStruct fs _ _ _ => forallb (fun f => sane (fst f) && (0 <=? snd (snd f))) fs
  | TRel t' => sane t'
  | TAbs w t' => (0 <? w) && sane t'
  | TArr t' | TVec _ t' => sane t' && (0 <? least t')
  | TEnum vs => forallb (fun c => sane (snd c)) vs
  | TFix n t' => (0 <=? n) && (sane t' && (0 <? least t'))
  end.

(** An upper bound for the steps in a file of [n] bytes: an array read to the end of the file
    has at most [n] elements, and the attempt that fails *)
Fixpoint budget (n : Z) (t : ty) : Z :=
  match t with
  | TInt _ | TRepr _ _ _ | TBits _ | TUnit => 1
  | TStruct fs _ _ _ => 1 + fold_right (fun f s => budget n (fst f) + s) 0 fs
  | TRel t' | TAbs _ t' => 1 + budget n t'
  | TArr t' | TVec _ t' => 2 + (n + 1) * (budget n t' + 1)
  | TBuf => 2 + n
  | TCStr _ => 1 + n
  | TEnum vs => 2 + fold_right (fun c s => Z.max (budget n (snd c)) s) 0 vs
  | TFix k t' => 1 + k * (budget n t' + 1)
  end.

(** The degree of the bound as a polynomial in the length of the file: how deep arrays,
    buffers and strings are nested *)
Fixpoint degree (t : ty) : Z :=
  match t with
  | TInt _ | TRepr _ _ _ | TBits _ | TUnit => 0
  | TStruct fs _ _ _ => fold_right (fun f s => Z.max (degree (fst f)) s) 0 fs
  | TRel t' | TAbs _ t' | TFix _ t' => degree t'
  | TArr t' | TVec _ t' => 1 + degree t'
  | TBuf | TCStr _ => 1
  | TEnum vs => fold_right (fun c s => Z.max (degree (snd c)) s) 0 vs
  end.

(** Arrays inside arrays *)
Fixpoint array_depth (t : ty) : Z :=
  match t with
  | TInt _ | TRepr _ _ _ | TBits _ | TUnit | TBuf | TCStr _ => 0
  | TStruct fs _ _ _ => fold_right (fun f s => Z.max (array_depth (fst f)) s) 0 fs
  | TRel t' | TAbs _ t' | TFix _ t' | TVec _ t' => array_depth t'
  | TArr t' => 1 + array_depth t'
  | TEnum vs => fold_right (fun c s => Z.max (array_depth (snd c)) s) 0 vs
  end.

(** How much a value holds: numbers, bytes and pointers *)
Fixpoint content (v : val) : Z :=
  match v with
  | VInt _ => 1
  | VBytes bs => zlen bs
  | VStruct vs | VArr vs => fold_right (fun v n => content v + n) 0 vs
  | VPtr o => match o with Some v => 1 + content v | None => 1 end
  | VCase _ v => content v
  end.

(** No text, buffer or list of the value has more than [n] elements. *)
Fixpoint short (n : Z) (v : val) : bool :=
  match v with
  | VInt _ => true
  | VBytes bs => zlen bs <=? n
  | VStruct vs => forallb (short n) vs
  | VArr vs => (zlen vs <=? n) && forallb (short n) vs
  | VPtr o => match o with Some v => short n v | None => true end
  | VCase _ v => short n v
  end.

(** ** Data of ssbh_data *)

(** The lists of an animation: groups, nodes and tracks; the values of a track *)
Definition anim_short (n : Z) (d : anim_data) : Prop :=
  zlen (ad_groups d) <= n /\ forall g, In g (ad_groups d) ->
  zlen (gd_nodes g) <= n /\ forall x, In x (gd_nodes g) ->
  zlen (nd_tracks x) <= n /\ forall t, In t (nd_tracks x) -> tv_len (td_values t) <= 8 * n.
(** The lists of a mesh: objects, attributes and their vectors, indices, influences and their
    weights *)
Definition mesh_short (n : Z) (d : mesh_data) : Prop :=
  zlen (mesh_objects d) <= n /\ forall o, In o (mesh_objects d) ->
  2 * zlen (ob_indices o) <= n /\ zlen (all_attributes o) <= n /\ zlen (ob_influences o) <= n * n /\
  (forall a, In a (all_attributes o) -> zlen (vec_rows (attr_data a)) <= n) /\
  (forall i, In i (ob_influences o) -> zlen (inf_weights i) <= n).
