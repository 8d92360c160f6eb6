(** The programs ssbh_lib_json and ssbh_data_json with the texts they read and write.
    Paths below are relative to /repo. *)
From Verif Require Import Bytes Strings MeshEx MeshData VecData SkelData AnimFile Json JsonFile DataJson JsonText.

(** read_data_write_json and write_json, ssbh_lib_json/src/main.rs:20-49: the text of the file
    that is written *)
Definition file_to_text (ext : string) (b : list Z) : res (list Z) :=
  let* j := file_to_json ext b in Ok (to_text j).

(** read_json_write_data, ssbh_lib_json/src/main.rs:51-90.  Text that is not UTF-8 panics in
    read_to_string, a failed save in write_data.  If the text is not JSON all three types fail
    and nothing is written. *)
Definition text_to_file (t : list Z) : res (option (string * list Z)) :=
  if utf8_valid t then
    match from_text t with
    | Some j =>
        match json_to_file j with
        | Some (ext, r) => let* out := r in Ok (Some (ext, out))
        | None => Ok None
        end
    | None => Ok None
    end
  else Panic.

(** parse_and_write_json, ssbh_data_json/src/main.rs:21-36 *)
Definition data_to_text order (ext : string) (b : list Z) : option (res (list Z)) :=
  option_map (fun r => let* j := r in Ok (to_text j)) (data_to_json order ext b).

(** The branch "json", ssbh_data_json/src/main.rs:76-102: the last attempt is unwrapped. *)
Definition text_to_data_file mul inv bounding sphere_of (t : list Z) : res (string * list Z) :=
  if utf8_valid t then
    match from_text t with
    | Some j => json_to_data_file mul inv bounding sphere_of j
    | None => Panic
    end
  else Panic.
