(** Concrete values used to show that the theorems apply to something. *)
From Verif Require Import Bytes Ssbh Described SsbhSpec Formats File Strings.

(** "abc", "x", "" and a text with an embedded NUL *)
Definition text_abc := [97; 98; 99].
Definition text_x := [120].
Definition str_abc := ssbh_string text_abc.
Definition str_x := ssbh_string text_x.
Definition str_empty := ssbh_string [].

(** A model with all fields in use. *)
Definition ex_modl : ssbh_file :=
  mkFile Modl (1, 7)
    (VStruct [str_abc; str_x; VArr [str_empty; str_abc]; VPtr (Some str_x); str_empty;
              VArr [VStruct [str_abc; VInt 7; str_x]; VStruct [str_x; VInt 0; str_abc]]]).

(** A material with a null parameter, a float, a colour, a texture name and a blend state. *)
Definition ex_matl : ssbh_file :=
  let param id v := VStruct [VInt id; VPtr v] in
  mkFile Matl (1, 6)
    (VStruct [VArr [VStruct [str_abc;
       VArr [param 0 None;
             param 5 (Some (VCase 1 (VStruct [VInt 1065353216])));
             param 6 (Some (VCase 7 (VStruct [VStruct [VInt 0; VInt 1; VInt 2; VInt 3]])));
             param 7 (Some (VCase 11 (VStruct [str_x])));
             param 8 (Some (VCase 17 (VStruct [VStruct [VInt 1; VInt 0; VInt 10; VInt 1; VInt 0; VInt 0;
                                                     VInt 0; VInt 0; VInt 0; VInt 5]])))];
       str_x]]]).

(** Two items with an empty array between the names. *)
Definition ex_nufx : ssbh_file :=
  mkFile Nufx (1, 0)
    (VStruct [VStruct [VArr []; VArr [VStruct [str_abc; VArr []]; VStruct [str_x; VArr []]]]]).

(** An animation without groups. *)
Definition ex_anim : ssbh_file :=
  mkFile Anim (2, 1)
    (VStruct [VInt 0; VInt 1; VInt 0; str_abc; VArr []; VBytes [1; 2; 3]; VStruct [VArr []; VArr []]]).

Definition written (f : ssbh_file) : list Z :=
  match file_write f with Ok out => out | _ => [] end.

(** Whether a file is well formed and serialises to fewer than 2^63 bytes. *)
Definition good (f : ssbh_file) : bool :=
  match format (fkind f) (fver f) with
  | Some t => wt t (fbody f) && (zlen (written f) <? 2 ^ 63) &&
              match file_write f with Ok _ => true | _ => false end
  | None => false
  end.
