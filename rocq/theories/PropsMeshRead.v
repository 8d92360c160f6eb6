(** Properties of loading mesh files. *)
From Verif Require Import Bytes Ssbh Formats File Strings VecData MeshData MeshSpec MeshReadSpec MeshRead MeshFacts MeshReload ResaveFacts PropsMesh Json MeshNames.

(** ** C65: mesh files, whoever wrote them.  The result is given by the positions in the file; it
    exists exactly if these lie inside the buffers and the bones have names; loading never
    panics. *)
Theorem C65_mesh_file : forall b version v, bytes_ok b = true -> typed_read Mesh b = Ok (version, v) ->
  exists ver os bufs ib groups, In (version, ver) layouts /\ mesh_fields v os bufs ib groups /\
    (forall d, mesh_data_read b = Ok d <->
       (mesh_major d, mesh_minor d) = version /\ Forall2 (loaded_object ver bufs ib groups) os (mesh_objects d)) /\
    ((exists d, mesh_data_read b = Ok d) <-> Forall (object_inside ver bufs ib groups) os) /\
    mesh_data_read b <> Panic.
Proof. exact mesh_file. Qed.
Print Assumptions C65_mesh_file.

(** An object whose vertices overlap in a buffer of [size] bytes 0, 1, 2, ...: eight bytes from
    one to the next although a position has twelve.  It has [n] indices of four bytes, flags
    other than 0 and 1, and two groups of influences. *)
Definition ex_object_file (size : nat) (n : Z) (bone : val) : res (list Z) :=
  let v3 := VStruct [VInt 0; VInt 0; VInt 0] in
  let bounding := VStruct [VStruct [v3; VInt 0]; VStruct [v3; v3]; VStruct [v3; VStruct [v3; v3; v3]; v3]] in
  let attribute u t offset names := VStruct [VInt u; VInt t; VInt 1; VInt offset; VInt 0; ssbh_string [120]; VArr (map ssbh_string names)] in
  let group name bones := VStruct [ssbh_string name; VInt 7; VStruct [VInt 1; VInt 1]; VArr bones] in
  typed_write Mesh (1, 10) (VStruct [VStruct [ssbh_string []; bounding; VInt 0;
    VArr [VStruct [ssbh_string [111]; VInt 7; ssbh_string [112]; VInt 2; VInt n; VInt 99;
                   VInt 0; VInt 3; VInt 0; VInt 0; VInt 0; VInt 8; VInt 0; VInt 0;
                   VInt 1; VInt 4; VInt 1; VInt 0; VInt 5; VStruct [VInt 0; VInt 200]; bounding;
                   VArr [attribute 4 8 2 [[117]; [118]]; attribute 0 0 0 []; attribute 4 2 1 [[119]]]]];
    VArr []; VInt 0; VArr [VBytes []; VBytes (map Z.of_nat (seq 0 size))];
    VBytes [255; 1; 0; 0; 0; 2; 0; 0; 0; 3; 0; 0; 0; 4; 0; 0; 1];
    VArr [group [111] [VStruct [bone; VBytes [1; 0; 0; 0; 128; 63; 9]]]; group [112] [VStruct [ssbh_string [98]; VBytes []]];
          group [111] [VStruct [ssbh_string [99]; VBytes []]]]]]).
Example C65_example :
  (let* b := ex_object_file 23 4 (ssbh_string [98]) in mesh_data_read b) =
    Ok (MkMesh 1 10 [MkObj [111] 7 [112] 5 false true [1; 2; 3; 16777220]
      [MkAttr [] (MkVec Three [[0x06050403; 0x0a090807; 0x0e0d0c0b]; [0x0e0d0c0b; 0x1211100f; 0x16151413]])] [] [] []
      [MkAttr [117] (MkVec Two [[f16_to_f32 0x0605; f16_to_f32 0x0807]; [f16_to_f32 0x0e0d; f16_to_f32 0x100f]]);
       MkAttr [119] (MkVec Four [map u8_to_f32 [4; 5; 6; 7]; map u8_to_f32 [12; 13; 14; 15]])] []
      [MkInf [98] [MkWeight 1 1065353216]; MkInf [99] []]]) /\
  (exists b v, ex_object_file 22 4 (ssbh_string [98]) = Ok b /\ typed_read Mesh b = Ok ((1, 10), v) /\
     exists e, mesh_data_read b = Err e) /\
  (exists b v, ex_object_file 23 4 (VStruct [VPtr None]) = Ok b /\ typed_read Mesh b = Ok ((1, 10), v) /\
     exists e, mesh_data_read b = Err e) /\
  mesh_data_read (ex_mesh_out 9) = Ok (stored_mesh (ex_mesh 9)).
Proof.
  split; [vm_compute; reflexivity|]. split; [|split; [|vm_compute; reflexivity]].
  - exists (match ex_object_file 22 4 (ssbh_string [98]) with Ok b => b | _ => [] end). eexists.
    split; [vm_compute; reflexivity|]. split; [vm_compute; reflexivity|]. eexists. vm_compute. reflexivity.
  - exists (match ex_object_file 23 4 (VStruct [VPtr None]) with Ok b => b | _ => [] end). eexists.
    split; [vm_compute; reflexivity|]. split; [vm_compute; reflexivity|]. eexists. vm_compute. reflexivity.
Qed.

(** The names made for attributes of version 1.8 are a prefix for the usage and the number in
    decimal; attributes that differ in usage or number differ in name. *)
Theorem C65_names : forall u n p, In (u, p) name_prefixes -> 0 <= n < 2 ^ 32 ->
  exists ds, usage_text u ++ decimal n = text_of p ++ ds /\ written_decimal ds n.
Proof. exact made_names. Qed.
Print Assumptions C65_names.
Theorem C65_names_distinct : forall u n u' n', u <> Binormal -> u' <> Binormal -> 0 <= n < 2 ^ 32 -> 0 <= n' < 2 ^ 32 ->
  usage_text u ++ decimal n = usage_text u' ++ decimal n' -> u = u' /\ n = n'.
Proof. exact names_distinct. Qed.
Print Assumptions C65_names_distinct.
Example C65_names_example : usage_text ColorSet ++ decimal 4294967295 = text_of "colorSet4294967295" /\ usage_text Position ++ decimal 0 = text_of "Position0".
Proof. vm_compute. auto. Qed.

(** ** C52 for meshes: what was loaded from any file can be saved, exactly if it is [saveable],
    and loads again as the rounded data. *)
Theorem C52_mesh_reload : forall bounding b d, bounding_ok bounding -> bytes_ok b = true -> mesh_data_read b = Ok d ->
  Forall lists_fit (mesh_objects d) -> mesh_fits (mesh_version_of d) (mesh_objects d) ->
  (saveable d -> exists out, mesh_data_write bounding d = Ok out /\ (zlen out < 2 ^ 63 -> mesh_data_read out = Ok (stored_mesh d))) /\
  (~ saveable d -> exists e, mesh_data_write bounding d = Err (EData e) /\ mesh_violation d (EData e) /\
     In e [DDuplicate; DNotTriangles; DIndexRange]).
Proof. exact mesh_reload. Qed.
Print Assumptions C52_mesh_reload.

Definition ex_loaded (n : Z) : mesh_data :=
  match (let* b := ex_object_file 23 n (ssbh_string [98]) in mesh_data_read b) with Ok d => d | _ => MkMesh 0 0 [] end.
Example C52_example :
  (let* b := ex_object_file 23 0 (ssbh_string [98]) in mesh_data_read b) = Ok (ex_loaded 0) /\
  Forall lists_fit (mesh_objects (ex_loaded 0)) /\ mesh_fits (mesh_version_of (ex_loaded 0)) (mesh_objects (ex_loaded 0)) /\ saveable (ex_loaded 0) /\
  (let* out := mesh_data_write simple_bounding (ex_loaded 0) in mesh_data_read out) = Ok (stored_mesh (ex_loaded 0)) /\
  mesh_data_write simple_bounding (ex_loaded 3) = Err (EData DIndexRange) /\
  mesh_data_write simple_bounding (ex_loaded 4) = Err (EData DNotTriangles).
Proof.
  assert (E : ex_loaded 0 = ltac:(let x := eval vm_compute in (ex_loaded 0) in exact x)) by (vm_compute; reflexivity).
  split; [vm_compute; reflexivity|]. rewrite E; clear E.
  split; [|split; [|split; [|vm_compute; auto]]].
  - apply Forall_cons; [|apply Forall_nil]. split; [vm_compute; reflexivity|]. split; [vm_compute; reflexivity|].
    intros i [<-|[<-|[]]]; vm_compute; reflexivity.
  - split; [|split; [|split]]; vm_compute; reflexivity.
  - split; [apply NoDup_cons; [intros []|apply NoDup_nil]|]. intros o [<-|[]]. split; [exists 0; reflexivity|intros i []].
Qed.
