(** The program ssbh_data_json on files that are read. *)
From Coq Require Import Lia ZifyBool ZifyNat ZifyN Permutation.
From Verif Require Import Bytes BytesFacts Ssbh Formats File MeshEx Strings Float32 AnimComp AnimBuf AnimSpec AnimFile SmallData
  DataSpec MatlData MatlSpec SkelData SkelSpec AdjData VecData MeshData MeshSpec MeshReadSpec MeshRead MeshLemmas MeshReload
  AnimReload ReloadFacts Json JsonSchema JsonSpec JsonFacts JsonOrder DataJson DataJsonSpec DataJsonFacts DataJsonLoad.
Ltac Zify.zify_post_hook ::= ZifyBool.elim_bool_cstr; Z.to_euclidean_division_equations.
Local Open Scope list_scope.
Local Open Scope Z_scope.

Lemma kind_back k : kind_of_ext (data_ext k) = Some k.
Proof. now destruct k. Qed.
Lemma finite_dec d : {finite_data d} + {~ finite_data d}.
Proof. destruct (forallb f32_finite (data_floats d)) eqn:E; [left|right]; rewrite <- finite_iff; congruence. Qed.

Theorem data_iff d : typed_data d = true -> (read_first attempts (data_json d) = Some d <-> finite_data d).
Proof.
  intros T. rewrite <- finite_iff, (first_written _ T). destruct (forallb f32_finite (data_floats d)); split; congruence.
Qed.
Theorem data_not_finite d : typed_data d = true -> ~ finite_data d -> read_first attempts (data_json d) = None.
Proof.
  intros T N. rewrite <- finite_iff in N. rewrite (first_written _ T). now destruct (forallb f32_finite (data_floats d)).
Qed.

Theorem tool_library mul inv bounding sphere_of order k b d :
  (forall l, Permutation l (order l)) -> bytes_ok b = true -> load_as order k b = Ok d ->
  data_to_json order (data_ext k) b = Some (Ok (data_json d)) /\
  (finite_data d -> forall out, save_data mul inv bounding sphere_of d = Ok out ->
     json_to_data_file mul inv bounding sphere_of (data_json d) = Ok (data_ext k, out)) /\
  (finite_data d -> (forall out, save_data mul inv bounding sphere_of d <> Ok out) ->
     json_to_data_file mul inv bounding sphere_of (data_json d) = Panic) /\
  (~ finite_data d -> json_to_data_file mul inv bounding sphere_of (data_json d) = Panic).
Proof.
  intros P Hb L. destruct (load_typed _ _ _ _ P Hb L) as [K T]. unfold data_to_json, json_to_data_file. rewrite kind_back, L.
  split; [reflexivity|]. split; [|split].
  - intros F out S. apply (data_iff _ T) in F. now rewrite F, S, K.
  - intros F S. apply (data_iff _ T) in F. rewrite F. now destruct (save_data _ _ _ _ d) as [out| |] eqn:E; [destruct (S out)| |].
  - intros F. now rewrite (data_not_finite _ T F).
Qed.

Lemma modl_again b d o : bytes_ok b = true -> modl_data_read b = Ok d -> modl_data_write d = Ok o -> zlen o < 2 ^ 63 ->
  modl_data_read o = Ok d.
Proof.
  intros Hb E S Lo. destruct (modl_reload _ _ Hb E) as (o' & S' & R'). assert (o' = o) as -> by congruence. exact (R' Lo).
Qed.
Lemma save_modl mul inv bounding sphere_of d : save_data mul inv bounding sphere_of (DtModl d) = modl_data_write d.
Proof. reflexivity. Qed.
Lemma load_modl order b : load_as order DkModl b = let* d := modl_data_read b in Ok (DtModl d).
Proof. reflexivity. Qed.
Lemma modl_saved mul inv bounding sphere_of d o : save_data mul inv bounding sphere_of (DtModl d) = Ok o -> modl_data_write d = Ok o.
Proof. rewrite save_modl. intros H. exact H. Qed.
Lemma modl_loaded order b d : load_as order DkModl b = Ok d -> exists x, d = DtModl x /\ modl_data_read b = Ok x.
Proof. rewrite load_modl. destruct (modl_data_read b) as [x| |]; cbn [bind]; intros L; try discriminate L. injection L as <-. eauto. Qed.
Lemma modl_case mul inv bounding sphere_of order b d o :
  bytes_ok b = true -> load_as order DkModl b = Ok d -> save_data mul inv bounding sphere_of d = Ok o -> zlen o < 2 ^ 63 ->
  load_as order DkModl o = Ok (stored_data d).
Proof.
  intros Hb L S Lo. apply modl_loaded in L as (x & -> & E). apply modl_saved in S. pose proof (modl_again _ _ _ Hb E S Lo) as R. rewrite load_modl, R. reflexivity.
Qed.
Theorem data_reload mul inv bounding sphere_of order k b d o :
  (forall a c, mat_ok (mul a c) = true) -> (forall a, mat_ok (inv a) = true) -> bounding_ok bounding ->
  (forall gs, sphere_ok (sphere_of gs) = true) ->
  bytes_ok b = true -> load_as order k b = Ok d -> data_fits d ->
  save_data mul inv bounding sphere_of d = Ok o -> zlen o < 2 ^ 63 -> load_as order k o = Ok (stored_data d).
Proof.
  intros Hm Hi Hbd Hs Hb L Fit S Lo.
  destruct k; [| | |exact (modl_case _ _ _ _ _ _ _ _ Hb L S Lo)|..]; cbn [load_as] in L; apply bind_ok in L as (x & E & L); injection L as <-; cbn [save_data] in S; cbn [load_as stored_data].
  - destruct Fit as [Fl Fm]. destruct (mesh_loaded _ _ Hb E) as (K' & _). now rewrite (mesh_save_load _ _ _ Hbd (K' Fl) Fm S Lo).
  - destruct (skel_reload mul inv _ _ Hm Hi Hb E) as [S'|(o' & S' & R')]; [congruence|]. rewrite S in S'. injection S' as <-. now rewrite (R' Lo).
  - destruct (anim_reload _ _ _ Hb E) as [[_ S']|(_ & _ & _ & X)]; [congruence|]. destruct (X Fit) as [Y N]. destruct (final_ok x).
    + destruct (Y eq_refl) as (o' & S' & R'). rewrite S in S'. injection S' as <-. now rewrite (R' Lo).
    + specialize (N eq_refl). congruence.
  - destruct (matl_reload _ _ Hb E) as [(_ & o' & S' & R')|[_ S']]; [|congruence]. rewrite S in S'. injection S' as <-. now rewrite (R' Lo).
  - destruct Fit as [F1 F2]. destruct (hlpb_reload _ _ Hb E F1 F2) as (o' & S' & R'). rewrite S in S'. injection S' as <-. now rewrite (R' Lo).
  - destruct (meshex_reload _ _ _ (Hs x) Hb E) as [S'|(o' & S' & R')]; [congruence|]. rewrite S in S'. injection S' as <-. now rewrite (R' Lo).
  - destruct (adj_reload _ _ Hb E) as (o' & S' & R'). rewrite S in S'. injection S' as <-. now rewrite R'.
Qed.

Theorem tool_round mul inv bounding sphere_of order k b d ext out :
  (forall a c, mat_ok (mul a c) = true) -> (forall a, mat_ok (inv a) = true) -> bounding_ok bounding ->
  (forall gs, sphere_ok (sphere_of gs) = true) -> (forall l, Permutation l (order l)) ->
  bytes_ok b = true -> load_as order k b = Ok d -> data_fits d ->
  json_to_data_file mul inv bounding sphere_of (data_json d) = Ok (ext, out) -> zlen out < 2 ^ 63 ->
  ext = data_ext k /\ save_data mul inv bounding sphere_of d = Ok out /\ load_as order k out = Ok (stored_data d) /\
  data_to_json order ext out = Some (Ok (data_json (stored_data d))).
Proof.
  intros Hm Hi Hbd Hs P Hb L Fit J Lo. destruct (load_typed _ _ _ _ P Hb L) as [K T].
  unfold json_to_data_file in J. rewrite (first_written _ T) in J. destruct (forallb f32_finite (data_floats d)); [|discriminate J].
  destruct (save_data mul inv bounding sphere_of d) as [o|e|] eqn:S; try discriminate J. cbn [unwrap bind] in J. injection J as <- <-. rewrite K.
  pose proof (data_reload _ _ _ _ _ _ _ _ _ Hm Hi Hbd Hs Hb L Fit S Lo) as R.
  split; [reflexivity|]. split; [reflexivity|]. split; [exact R|]. unfold data_to_json. now rewrite kind_back, R.
Qed.

Theorem json_to_data_file_stable mul inv bounding sphere_of j j' :
  reordered j j' -> json_to_data_file mul inv bounding sphere_of j = json_to_data_file mul inv bounding sphere_of j'.
Proof. intros R. unfold json_to_data_file. now rewrite (read_first_stable _ _ _ R). Qed.

Theorem told_apart_any ks d :
  typed_data d = true -> finite_data d ->
  match d with DtModl m => md_entries m <> [] | DtMatl m => mt_entries m <> [] | _ => True end ->
  In (data_kind_of d) ks -> read_first ks (data_json d) = Some d.
Proof.
  intros T F E I. apply read_first_own; auto; [now apply finite_iff|]. intros k _ N.
  destruct (read_as k (data_json d)) as [d'|] eqn:R; [|reflexivity].
  destruct (told_other _ _ _ T (fun e => N (eq_sym e)) R) as [(m & -> & Em & _)|(m & -> & Em & _)]; now destruct E.
Qed.

Theorem accepted_typed j d : wellformed j = true -> read_first attempts j = Some d -> typed_data d = true.
Proof. intros W R. exact (first_typed _ _ W R). Qed.
Theorem tool_outcome mul inv bounding sphere_of j :
  (exists d out, read_first attempts j = Some d /\ save_data mul inv bounding sphere_of d = Ok out /\
     json_to_data_file mul inv bounding sphere_of j = Ok (data_ext (data_kind_of d), out)) \/
  json_to_data_file mul inv bounding sphere_of j = Panic.
Proof.
  unfold json_to_data_file. destruct (read_first attempts j) as [d|]; [|now right].
  destruct (save_data mul inv bounding sphere_of d) as [out| |] eqn:S; [left; exists d, out; rewrite S; auto|now right|now right].
Qed.

(** Members with a default *)
Lemma default_omitted fs x nul dv s j ms :
  nodupb String.eqb (map fst fs) = true -> In (x, SDef nul dv s) fs -> from_json (SDef nul dv s) j = Some dv ->
  ~ In x (map fst ms) -> from_json (SStruct fs) (JObj ((x, j) :: ms)) = from_json (SStruct fs) (JObj ms).
Proof.
  intros N I E M. eapply default_member; eauto. revert N. apply nodupb_spec. intros. apply String.eqb_eq.
Qed.
Ltac found := solve [repeat (first [left; reflexivity|right])].
Ltac omit := intros I M; cbn [In sampler_defaults blend_defaults] in I;
  repeat (destruct I as [I|I]; [injection I as <- <-; eapply default_omitted; [reflexivity|found|vm_compute; reflexivity|exact M]|]); destruct I.
Theorem sampler_omitted x j ms : In (x, j) sampler_defaults -> ~ In x (map fst ms) ->
  from_json sd_sampler (JObj ((x, j) :: ms)) = from_json sd_sampler (JObj ms).
Proof. omit. Qed.
Theorem blend_omitted x j ms : In (x, j) blend_defaults -> ~ In x (map fst ms) ->
  from_json sd_blend (JObj ((x, j) :: ms)) = from_json sd_blend (JObj ms).
Proof. omit. Qed.
Theorem uvs_omitted ms : ~ In "uv_transforms"%string (map fst ms) ->
  from_json sd_matl_entry (JObj (("uv_transforms"%string, JArr []) :: ms)) = from_json sd_matl_entry (JObj ms).
Proof. intros M. eapply default_omitted; [reflexivity|found|vm_compute; reflexivity|exact M]. Qed.

Theorem tool_extensions order b :
  data_to_json order "numshb" b = Some (let* d := mesh_data_read b in Ok (data_json (DtMesh d))) /\
  data_to_json order "nusktb" b = Some (let* d := skel_data_read b in Ok (data_json (DtSkel 1 0 d))) /\
  data_to_json order "nuanmb" b = Some (let* d := anim_data_read order b in Ok (data_json (DtAnim d))) /\
  data_to_json order "numdlb" b = Some (let* d := modl_data_read b in Ok (data_json (DtModl d))) /\
  data_to_json order "numatb" b = Some (let* d := matl_data_read b in Ok (data_json (DtMatl d))) /\
  data_to_json order "nuhlpb" b = Some (let* d := hlpb_data_read b in Ok (data_json (DtHlpb d))) /\
  data_to_json order "numshexb" b = Some (let* d := meshex_data_read b in Ok (data_json (DtMeshEx d))) /\
  data_to_json order "adjb" b = Some (let* d := adj_data_read b in Ok (data_json (DtAdj d))) /\
  forall ext, ~ In ext ["numshb"; "nusktb"; "nuanmb"; "numdlb"; "numatb"; "nuhlpb"; "numshexb"; "adjb"]%string ->
    data_to_json order ext b = None.
Proof.
  assert (forall k A (r : res A) (c : A -> data), load_as order k b = (let* x := r in Ok (c x)) ->
    data_to_json order (data_ext k) b = Some (let* x := r in Ok (data_json (c x)))) as H.
  { intros k A r c E. unfold data_to_json. rewrite kind_back, E. now destruct r. }
  split; [apply (H DkMesh); reflexivity|]. split; [apply (H DkSkel _ _ (DtSkel 1 0)); reflexivity|].
  split; [apply (H DkAnim); reflexivity|]. split; [apply (H DkModl); reflexivity|]. split; [apply (H DkMatl); reflexivity|].
  split; [apply (H DkHlpb); reflexivity|]. split; [apply (H DkMeshEx); reflexivity|]. split; [apply (H DkAdj); reflexivity|].
  intros ext N. unfold data_to_json, kind_of_ext. destruct (find _ attempts) as [k|] eqn:F; [|reflexivity].
  apply find_some in F as [_ F]. apply String.eqb_eq in F as ->. exfalso. apply N. destruct k; cbn; tauto.
Qed.
