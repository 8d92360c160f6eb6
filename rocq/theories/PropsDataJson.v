(** Properties C72 to C76 of properties.jsonl: JSON documents of ssbh_data and the program
    ssbh_data_json.

    [typed_data] says that Rust's types admit a value, [finite_data] that it has neither an
    infinity nor a NaN (DataJsonSpec.v).  [jdata] is the document member by member
    (DataJsonLayout.v). *)
From Coq Require Import String Permutation.
From Verif Require Import Bytes Ssbh Formats Strings File MeshEx AnimComp AnimBuf AnimSpec AnimFile SmallData DataSpec MatlData
  SkelData SkelSpec AdjData VecData MeshData MeshSpec ResaveFacts Json JsonSchema JsonSpec JsonOrder DataJson DataJsonSpec
  DataJsonLayout DataJsonFacts DataJsonLoad DataJsonTool PropsData PropsMatl PropsMesh PropsSkel PropsAnim PropsAdj.
From Coq Require Import List.
Import ListNotations.
Open Scope Z_scope.

(** ** C72: what comes back from JSON *)
Theorem C72_data_iff : forall d,
  typed_data d = true -> (read_first attempts (data_json d) = Some d <-> finite_data d).
Proof. exact data_iff. Qed.
Print Assumptions C72_data_iff.

(** With an infinity or a NaN no type accepts the document. *)
Theorem C72_not_finite : forall d,
  typed_data d = true -> ~ finite_data d -> read_first attempts (data_json d) = None.
Proof. exact data_not_finite. Qed.
Print Assumptions C72_not_finite.

Theorem C72_layout : forall d, data_json d = jdata d.
Proof. exact data_layout. Qed.
Print Assumptions C72_layout.

Definition ex_all : list data :=
  [DtMesh (ex_mesh 10); DtSkel 1 0 ex_bones; DtAnim PropsAnim.ex_anim; DtModl PropsData.ex_modl; DtMatl PropsMatl.ex_matl;
   DtHlpb PropsData.ex_hlpb; DtMeshEx ex_groups; DtAdj ex_adj_data].
Example C72_example :
  map data_kind_of ex_all = attempts /\ forallb typed_data ex_all = true /\
  map (fun d => Z.of_nat (List.length (data_floats d))) ex_all = map (fun d => Z.of_nat (List.length (filter f32_finite (data_floats d)))) ex_all.
Proof. vm_compute. auto. Qed.
Example C72_nan :
  let d := DtMeshEx [MG (Sph (V3 0 0 0x7fc00000) 0) [] [] []] in
  typed_data d = true /\ read_first attempts (data_json d) = None.
Proof. vm_compute. auto. Qed.

(** ** C73: the program and the library *)
Theorem C73_same_as_library : forall mul inv bounding sphere_of order k b d,
  (forall l, Permutation l (order l)) -> bytes_ok b = true -> load_as order k b = Ok d ->
  data_to_json order (data_ext k) b = Some (Ok (data_json d)) /\
  (finite_data d -> forall out, save_data mul inv bounding sphere_of d = Ok out ->
     json_to_data_file mul inv bounding sphere_of (data_json d) = Ok (data_ext k, out)) /\
  (finite_data d -> (forall out, save_data mul inv bounding sphere_of d <> Ok out) ->
     json_to_data_file mul inv bounding sphere_of (data_json d) = Panic) /\
  (~ finite_data d -> json_to_data_file mul inv bounding sphere_of (data_json d) = Panic).
Proof. exact tool_library. Qed.
Print Assumptions C73_same_as_library.

(** The extension selects the type; files with any other extension are left alone. *)
Theorem C73_extensions : forall order b,
  data_to_json order "numshb" b = Some (let* d := mesh_data_read b in Ok (data_json (DtMesh d))) /\
  data_to_json order "nusktb" b = Some (let* d := skel_data_read b in Ok (data_json (DtSkel 1 0 d))) /\
  data_to_json order "nuanmb" b = Some (let* d := anim_data_read order b in Ok (data_json (DtAnim d))) /\
  data_to_json order "numdlb" b = Some (let* d := modl_data_read b in Ok (data_json (DtModl d))) /\
  data_to_json order "numatb" b = Some (let* d := matl_data_read b in Ok (data_json (DtMatl d))) /\
  data_to_json order "nuhlpb" b = Some (let* d := hlpb_data_read b in Ok (data_json (DtHlpb d))) /\
  data_to_json order "numshexb" b = Some (let* d := meshex_data_read b in Ok (data_json (DtMeshEx d))) /\
  data_to_json order "adjb" b = Some (let* d := adj_data_read b in Ok (data_json (DtAdj d))) /\
  forall ext, ~ In ext ["numshb"; "nusktb"; "nuanmb"; "numdlb"; "numatb"; "nuhlpb"; "numshexb"; "adjb"]%string ->
    data_to_json order ext b = None.
Proof. exact tool_extensions. Qed.
Print Assumptions C73_extensions.

(** A file converted to JSON and back is converted to the same JSON, except for what saving
    changes in an animation or a mesh ([stored_data]). *)
Theorem C73_back_and_forth : forall mul inv bounding sphere_of order k b d ext out,
  (forall a c, mat_ok (mul a c) = true) -> (forall a, mat_ok (inv a) = true) -> bounding_ok bounding ->
  (forall gs, sphere_ok (sphere_of gs) = true) -> (forall l, Permutation l (order l)) ->
  bytes_ok b = true -> load_as order k b = Ok d -> data_fits d ->
  json_to_data_file mul inv bounding sphere_of (data_json d) = Ok (ext, out) -> zlen out < 2 ^ 63 ->
  ext = data_ext k /\ save_data mul inv bounding sphere_of d = Ok out /\ load_as order k out = Ok (stored_data d) /\
  data_to_json order ext out = Some (Ok (data_json (stored_data d))).
Proof. exact tool_round. Qed.
Print Assumptions C73_back_and_forth.

(** Everything the readers give is a value of Rust's types. *)
Theorem C73_loaded_typed : forall order k b d,
  (forall l, Permutation l (order l)) -> bytes_ok b = true -> load_as order k b = Ok d ->
  data_kind_of d = k /\ typed_data d = true.
Proof. exact load_typed. Qed.
Print Assumptions C73_loaded_typed.

Definition ex_files : list (data * list Z) :=
  flat_map (fun d =>
    match save_data (fun a _ => a) (fun a => a) simple_bounding (fun _ => ex_sphere) d with
    | Ok out => [(d, out)]
    | _ => []
    end) ex_all.
Definition ex_load (p : data * list Z) : bool :=
  match load_as (fun l => l) (data_kind_of (fst p)) (snd p) with Ok _ => bytes_ok (snd p) | _ => false end.
Definition ex_back (p : data * list Z) : bool :=
  match data_to_json (fun l => l) (data_ext (data_kind_of (fst p))) (snd p) with
  | Some (Ok j) =>
      match json_to_data_file (fun a _ => a) (fun a => a) simple_bounding (fun _ => ex_sphere) j with
      | Ok (ext, out) => String.eqb ext (data_ext (data_kind_of (fst p))) && (zlen out <? 2 ^ 63)
      | _ => false
      end
  | _ => false
  end.
Example C73_example :
  map (fun p => data_kind_of (fst p)) ex_files = attempts /\ forallb ex_load ex_files = true /\ forallb ex_back ex_files = true.
Proof. vm_compute. auto. Qed.

(** ** C74: edited documents *)
(** Whatever a document contains, the program writes what the library saves for a value of
    Rust's types, or panics. *)
Theorem C74_accepted : forall j d,
  wellformed j = true -> read_first attempts j = Some d -> typed_data d = true.
Proof. exact accepted_typed. Qed.
Print Assumptions C74_accepted.

Theorem C74_outcome : forall mul inv bounding sphere_of j,
  (exists d out, read_first attempts j = Some d /\ save_data mul inv bounding sphere_of d = Ok out /\
     json_to_data_file mul inv bounding sphere_of j = Ok (data_ext (data_kind_of d), out)) \/
  json_to_data_file mul inv bounding sphere_of j = Panic.
Proof. exact tool_outcome. Qed.
Print Assumptions C74_outcome.

Theorem C74_order : forall mul inv bounding sphere_of j j',
  reordered j j' -> json_to_data_file mul inv bounding sphere_of j = json_to_data_file mul inv bounding sphere_of j'.
Proof. exact json_to_data_file_stable. Qed.
Print Assumptions C74_order.

(** An animation document with its members in another order, an integer for a float and a
    member that is not a field. *)
Definition ex_edited : json :=
  JObj [("groups"%string, JArr []); ("minor_version"%string, JInt 0); ("comment"%string, JStr [104; 105]);
        ("final_frame_index"%string, JInt 1); ("major_version"%string, JInt 2)].
Example C74_example :
  wellformed ex_edited = true /\ read_first attempts ex_edited = Some (DtAnim (AD 2 0 0x3f800000 [])) /\
  data_json (DtAnim (AD 2 0 0x3f800000 [])) <> ex_edited.
Proof. split; [reflexivity|]. split; [vm_compute; reflexivity|]. vm_compute. discriminate. Qed.

(** ** C75: members that may be left out *)
Theorem C75_sampler : forall x j ms, In (x, j) sampler_defaults -> ~ In x (map fst ms) ->
  from_json sd_sampler (JObj ((x, j) :: ms)) = from_json sd_sampler (JObj ms).
Proof. exact sampler_omitted. Qed.
Print Assumptions C75_sampler.

Theorem C75_blend : forall x j ms, In (x, j) blend_defaults -> ~ In x (map fst ms) ->
  from_json sd_blend (JObj ((x, j) :: ms)) = from_json sd_blend (JObj ms).
Proof. exact blend_omitted. Qed.
Print Assumptions C75_blend.

Theorem C75_uv_transforms : forall ms, ~ In "uv_transforms"%string (map fst ms) ->
  from_json sd_matl_entry (JObj (("uv_transforms"%string, JArr []) :: ms)) = from_json sd_matl_entry (JObj ms).
Proof. exact uvs_omitted. Qed.
Print Assumptions C75_uv_transforms.

Example C75_example :
  from_json sd_sampler (JObj []) = Some (sampler_doc (Smp 1 1 1 1 1 (V4 0 0 0 0) 0 1)) /\
  from_json sd_sampler (JObj [("max_anisotropy"%string, JNull)]) = Some (sampler_doc (Smp 1 1 1 1 1 (V4 0 0 0 0) 0 1)) /\
  from_json sd_blend (JObj []) = Some (blend_doc (Bld 1 0 0 1 0 0 false)) /\
  Z.of_nat (List.length sampler_defaults) = 9 /\ Z.of_nat (List.length blend_defaults) = 7.
Proof. vm_compute. auto 10. Qed.
(** A rasterizer state has no defaults. *)
Theorem C75_raster_refuted : from_json sd_raster (JObj [("fill_mode"%string, jtext "Solid"); ("cull_mode"%string, jtext "Back")]) = None.
Proof. vm_compute. reflexivity. Qed.
Print Assumptions C75_raster_refuted.

(** ** C76: the types are told apart *)
(** The document of a value is accepted as another type only if it is a Modl or Matl without
    entries. *)
Theorem C76_other_types : forall d k d',
  typed_data d = true -> data_kind_of d <> k -> read_as k (data_json d) = Some d' ->
  (exists m, d = DtModl m /\ md_entries m = [] /\ (d' = DtMatl (MatD (md_major m) (md_minor m) []) \/ d' = DtAdj [])) \/
  (exists m, d = DtMatl m /\ mt_entries m = [] /\ d' = DtAdj []).
Proof. exact told_other. Qed.
Print Assumptions C76_other_types.

(** With entries the order of the attempts does not matter. *)
Theorem C76_any_order : forall ks d,
  typed_data d = true -> finite_data d ->
  match d with DtModl m => md_entries m <> [] | DtMatl m => mt_entries m <> [] | _ => True end ->
  In (data_kind_of d) ks -> read_first ks (data_json d) = Some d.
Proof. exact told_apart_any. Qed.
Print Assumptions C76_any_order.

Definition ex_empty : modl_data := MD 1 7 [] [] [] None [] [].
Example C76_example :
  read_as DkMatl (data_json (DtModl ex_empty)) = Some (DtMatl (MatD 1 7 [])) /\
  read_as DkAdj (data_json (DtModl ex_empty)) = Some (DtAdj []) /\
  read_first (rev attempts) (data_json (DtModl ex_empty)) = Some (DtAdj []) /\
  read_first (rev attempts) (data_json (DtModl PropsData.ex_modl)) = Some (DtModl PropsData.ex_modl) /\
  md_entries PropsData.ex_modl <> [].
Proof. repeat (split; [vm_compute; reflexivity|]). discriminate. Qed.

(** Documents written by hand: false.  Serde reads a struct from an array too, and then the
    first type with fields of these kinds is used. *)
Theorem C76_handwritten_refuted : exists j,
  read_as DkMatl j = Some (DtMatl (MatD 1 6 [])) /\ read_as DkSkel j = Some (DtSkel 1 6 []) /\
  read_first attempts j = Some (DtMesh (MkMesh 1 6 [])).
Proof. exists (JArr [JInt 1; JInt 6; JArr []]). vm_compute. auto. Qed.
Print Assumptions C76_handwritten_refuted.
