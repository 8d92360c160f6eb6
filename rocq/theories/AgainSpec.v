(** Specification of which data gives the same file again after a file was loaded. *)
From Verif Require Import Bytes Ssbh Formats AnimBuf AnimSpec ResaveSpec SmallData MatlData SkelData AdjData MeshEx MeshData MeshSpec Json DataJson CutSpec SaveSpec.

(** The objects of a mesh differ in what is kept of their names or in their numbers, and an object
    of version 1.8 with binormals has other attributes; the parents of bones have 15 bits; the
    tracks of animations are of those that are stored without loss: tracks with few frames, booleans
    and indices less than 2^24 apart. *)
Definition again_fits (d : data) : Prop :=
  match d with
  | DtMesh m => keys_differ d /\
      (mesh_minor m = 8 -> forall o, In o (mesh_objects m) -> ob_binormals o = [] \/ other_attributes o <> [])
  | DtSkel _ _ bones => parents_fit bones
  | DtAnim a => forall t, In t (tracks_of a) -> kept (td_values t)
  | DtModl _ | DtMatl _ | DtHlpb _ | DtMeshEx _ | DtAdj _ => True
  end.

Definition not_mesh (d : data) : bool := match d with DtMesh _ => false | _ => true end.
