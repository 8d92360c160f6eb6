(** Specification of which data can be saved, by the values alone. *)
From Verif Require Import Bytes Ssbh Formats MeshEx AnimComp AnimBuf AnimSpec SmallData MatlData SkelData SkelSpec AdjData
  MeshData MeshSpec Json DataJson.

(** A mesh has a known version, objects that differ in name or number and consist of triangles
    with valid indices, and weights that fit; no bone of a skeleton is its own ancestor; an
    animation and a material have known versions, and the final frame reaches the last frame of
    every track.  The other types have no conditions. *)
Definition savable (d : data) : Prop :=
  match d with
  | DtMesh d => mesh_valid d
  | DtSkel _ _ bones => forall b, In b bones -> exists l, ancestors bones b l
  | DtAnim d => ad_major d = 2 /\ (ad_minor d = 0 \/ ad_minor d = 1) /\ final_ok d = true
  | DtMatl d => mt_major d = 1 /\ mt_minor d = 6
  | DtModl _ | DtHlpb _ | DtMeshEx _ | DtAdj _ => True
  end.

(** What each error says about the data *)
Definition save_fault (d : data) (e : err) : Prop :=
  match d with
  | DtMesh d => mesh_violation d e
  | DtSkel _ _ bones => e = EData DCycle /\ exists b, In b bones /\ forall l, ~ ancestors bones b l
  | DtAnim d => (e = EData DVersion /\ ~ (ad_major d = 2 /\ (ad_minor d = 0 \/ ad_minor d = 1))) \/
      (e = EData DFinalFrame /\ ad_major d = 2 /\ (ad_minor d = 0 \/ ad_minor d = 1) /\ final_ok d = false)
  | DtMatl d => e = EData DVersion /\ ~ (mt_major d = 1 /\ mt_minor d = 6)
  | DtModl _ | DtHlpb _ | DtMeshEx _ | DtAdj _ => False
  end.

(** The offsets of a MeshEx file count bytes from its start, so the texts must leave room below
    2^64.  More than 2^62 bytes of text do not fit into the memory of any machine. *)
Definition texts_fit (d : data) : Prop :=
  match d with
  | DtMeshEx gs => zsum (map (fun g => zlen (mg_full g) + zlen (mg_name g)) gs) < 2 ^ 62
  | _ => True
  end.

(** Every parent of a skeleton fits into 15 bits. *)
Definition parents_fit (bones : list bone) : Prop :=
  forall b i, In b bones -> bn_parent b = Some i -> 0 <= i < 2 ^ 15.

(** Types stored as SSBH documents *)
Definition ssbh_data (d : data) : bool := match d with DtMeshEx _ | DtAdj _ => false | _ => true end.
(** Types of which a file keeps all numbers *)
Definition lossless (d : data) : bool := match d with DtMesh _ | DtAnim _ => false | _ => true end.
Definition data_parents_fit (d : data) : Prop := match d with DtSkel _ _ bones => parents_fit bones | _ => True end.
