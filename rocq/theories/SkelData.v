(** SkelData: world transforms, conversion to and from Skel, saving and loading.
    A matrix is its four columns of f32 bit patterns.  The product and the inverse of matrices
    come from another crate (glam) and are arguments [mul] and [inv] here.
    Paths below are relative to /repo/ssbh_data/src. *)
From Verif Require Import Bytes Ssbh Formats File Strings AnimComp AnimBuf SmallData.

Record mat := Mat { col1 : vec4; col2 : vec4; col3 : vec4; col4 : vec4 }.

(** BoneData, skel_data.rs:48-60; the billboard type is its number. *)
Record bone := Bone { bn_name : list Z; bn_transform : mat; bn_parent : option Z; bn_billboard : Z }.

(** calculate_relative_transform, skel_data.rs:122-135 *)
Definition calculate_relative_transform {M} (mul : M -> M -> M) (inv : M -> M) (world : M) (parent_world : option M) : M :=
  match parent_world with
  | Some p => mul world (inv p)
  | None => world
  end.

Section World.
Variable mul : mat -> mat -> mat.
Variable inv : mat -> mat.

(** The loop of calculate_world_transform, skel_data.rs:273-289.  [visited] is the hash set.
    The loop has no bound; [None] means that it is still running after [fuel] rounds. *)
Fixpoint world_loop (fuel : nat) (bones : list bone) (b : bone) (transform : mat) (visited : list Z) : option (res mat) :=
  match fuel with
  | O => None
  | S fuel =>
      match bn_parent b with
      | None => Some (Ok transform)
      | Some parent_index =>
          if existsb (Z.eqb parent_index) visited then Some (Err (EData DCycle))
          else
            match nth_error bones (Z.to_nat parent_index) with
            | Some parent_bone =>
                world_loop fuel bones parent_bone (mul (bn_transform parent_bone) transform) (parent_index :: visited)
            | None => Some (Ok transform)
            end
      end
  end.
(** calculate_world_transform, skel_data.rs:263-293.  The number of rounds is enough, see
    [C38_world_terminates]. *)
Definition world_fuel (bones : list bone) : nat := S (S (length bones)).
Definition calculate_world_transform (bones : list bone) (b : bone) : res mat :=
  match world_loop (world_fuel bones) bones b (bn_transform b) [] with
  | Some r => r
  | None => Panic
  end.

(** [collect::<Result<Vec<_>, _>>]: the first error *)
Fixpoint world_transforms (bones bs : list bone) : res (list mat) :=
  match bs with
  | [] => Ok []
  | b :: r =>
      let* m := calculate_world_transform bones b in
      let* ms := world_transforms bones r in
      Ok (m :: ms)
  end.

Definition mat_val (m : mat) : val := VStruct [vec4_val (col1 m); vec4_val (col2 m); vec4_val (col3 m); vec4_val (col4 m)].
Definition un_mat (v : val) : res mat :=
  match v with
  | VStruct [a; b; c; d] =>
      let* a := un_vec4 a in let* b := un_vec4 b in let* c := un_vec4 c in let* d := un_vec4 d in Ok (Mat a b c d)
  | _ => Err EType
  end.

(** One SkelBoneEntry, skel_data.rs:166-179.  [index as u16], [parent as i16] and -1 as bit patterns *)
Definition bone_entry (i : Z) (b : bone) : val :=
  VStruct [ssbh_string (bn_name b); VInt (i mod 2 ^ 16);
           VInt (match bn_parent b with Some p => p mod 2 ^ 16 | None => 65535 end);
           VStruct [VInt 1; VInt (bn_billboard b)]].
Fixpoint bone_entries (i : Z) (bs : list bone) : list val :=
  match bs with [] => [] | b :: r => bone_entry i b :: bone_entries (i + 1) r end.

(** TryFrom<&SkelData> for Skel, skel_data.rs:151-197; the version is ignored. *)
Definition skel_val (bones : list bone) : res val :=
  let* ws := world_transforms bones bones in
  Ok (VStruct [VArr (bone_entries 0 bones); VArr (map mat_val ws); VArr (map (fun m => mat_val (inv m)) ws);
               VArr (map (fun b => mat_val (bn_transform b)) bones); VArr (map (fun b => mat_val (inv (bn_transform b))) bones)]).

(** create_bone_data, skel_data.rs:228-235.  [parent_index.try_into::<usize>().ok()]: negative
    numbers, which have the top bit set, have no parent. *)
Definition un_bone (e t : val) : res bone :=
  match e with
  | VStruct [n; VInt _; VInt p; VStruct [VInt _; VInt bb]] =>
      let* t := un_mat t in
      Ok (Bone (ssbh_to_string_lossy n) t (if p <? 2 ^ 15 then Some p else None) bb)
  | _ => Err EType
  end.
(** [zip] stops at the end of the shorter list. *)
Fixpoint un_bones (es ts : list val) : res (list bone) :=
  match es, ts with
  | e :: er, t :: tr => let* b := un_bone e t in let* bs := un_bones er tr in Ok (b :: bs)
  | _, _ => Ok []
  end.
(** From<&Skel> for SkelData, skel_data.rs:205-226 *)
Definition un_skel (v : val) : res (list bone) :=
  match v with
  | VStruct [VArr es; VArr _; VArr _; VArr ts; VArr _] => un_bones es ts
  | _ => Err EType
  end.

(** SkelData::write and SkelData::read, lib.rs:110-122 *)
Definition skel_data_write (bones : list bone) : res (list Z) :=
  let* v := skel_val bones in typed_write Skel (1, 0) v.
Definition skel_data_read (b : list Z) : res (list bone) :=
  let* (_, v) := typed_read Skel b in un_skel v.
End World.
