(** The main functions of ssbh_lib_json and ssbh_data_json: which file is read and which is
    written.  Paths are the bytes of the argument, on Unix. *)
From Coq Require Import String.
From Verif Require Import Bytes Json JsonFile DataJson JsonText JsonTextFile.
From Coq Require Import List.
Import ListNotations.
Open Scope Z_scope.
Open Scope list_scope.

(** ** std::path::Path *)
(** The end of a path, reversed, without the slashes and the components "." there *)
Fixpoint strip_end (r : list Z) : list Z :=
  match r with
  | c :: r' =>
      if c =? 47 then strip_end r'
      else if (c =? 46) && match r' with d :: _ => d =? 47 | [] => false end then strip_end r'
      else r
  | [] => []
  end.

(** The last component, and what is before it *)
Fixpoint last_component (r : list Z) : list Z * list Z :=
  match r with
  | c :: r' => if c =? 47 then ([], r) else let (n, d) := last_component r' in (c :: n, d)
  | [] => ([], [])
  end.

(** Path::file_name, reversed, and what is before it.  The components "." and ".." are no names. *)
Definition file_name_rev (p : list Z) : option (list Z * list Z) :=
  let (n, d) := last_component (strip_end (rev p)) in
  match n with
  | [] => None
  | [c] => if c =? 46 then None else Some (n, d)
  | [c; c'] => if (c =? 46) && (c' =? 46) then None else Some (n, d)
  | _ => Some (n, d)
  end.

(** The last dot of a name, in a reversed name the first *)
Fixpoint split_dot (r : list Z) : option (list Z * list Z) :=
  match r with
  | c :: r' =>
      if c =? 46 then Some ([], r')
      else match split_dot r' with Some (e, s) => Some (c :: e, s) | None => None end
  | [] => None
  end.

(** Path::extension.  A dot at the start of a name starts no extension. *)
Definition extension (p : list Z) : option (list Z) :=
  match file_name_rev p with
  | Some (n, _) =>
      match split_dot n with
      | Some (e, _ :: _) => Some (rev e)
      | _ => None
      end
  | None => None
  end.

(** Path::with_extension: the path up to the end of the file stem, a dot and the extension *)
Definition with_extension (p ext : list Z) : list Z :=
  match file_name_rev p with
  | Some (n, d) =>
      let stem := match split_dot n with Some (_, c :: s) => c :: s | _ => n end in
      rev (stem ++ d) ++ match ext with [] => [] | _ => 46 :: ext end
  | None => p
  end.

(** ** The programs *)
(** The files by their paths; what a run that ends writes.  Err of a reader is printed. *)
Definition files := list Z -> option (list Z).
Inductive outcome := Writes (p b : list Z) | Silent | Panics.

Fixpoint same (a b : list Z) : bool :=
  match a, b with
  | [], [] => true
  | x :: a', y :: b' => (x =? y) && same a' b'
  | _, _ => false
  end.
Definition is_ext (e : list Z) (s : string) : bool := same e (text_of s).

Definition path_or (output : option (list Z)) (p : list Z) : list Z :=
  match output with Some o => o | None => p end.

(** ssbh_lib_json/src/main.rs:20-104 *)
Definition lib_main (fs : files) (input : list Z) (output : option (list Z)) : outcome :=
  match extension input with
  | None => Panics
  | Some e =>
      if is_ext e "json" then
        match fs input with
        | Some t =>
            match text_to_file t with
            | Ok (Some (ext, out)) => Writes (path_or output (with_extension input (text_of ext))) out
            | Ok None => Silent
            | _ => Panics
            end
        | None => Panics
        end
      else
        match fs input with
        | Some b =>
            match file_to_text (name_of_text e) b with
            | Ok t => Writes (path_or output (input ++ text_of ".json")) t
            | Err _ => Silent
            | Panic => Panics
            end
        | None => Silent
        end
  end.

(** ssbh_data_json/src/main.rs:21-106.  Other extensions do nothing. *)
Definition data_main mul inv bounding sphere_of order (fs : files) (input : list Z)
  (output : option (list Z)) : outcome :=
  match extension input with
  | None => Panics
  | Some e =>
      if is_ext e "json" then
        match fs input with
        | Some t =>
            match text_to_data_file mul inv bounding sphere_of t with
            | Ok (ext, out) => Writes (path_or output (with_extension input (text_of ext))) out
            | _ => Panics
            end
        | None => Panics
        end
      else
        match fs input with
        | Some b =>
            match data_to_text order (name_of_text e) b with
            | Some (Ok t) => Writes (path_or output (input ++ text_of ".json")) t
            | Some (Err _) | None => Silent
            | Some Panic => Panics
            end
        | None => Silent
        end
  end.

(** The files after a run *)
Definition put (fs : files) (p b : list Z) : files := fun q => if same q p then Some b else fs q.
