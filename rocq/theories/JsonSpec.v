(** What JSON can and cannot hold, stated on values. *)
From Coq Require Import Permutation.
From Verif Require Import Bytes Ssbh Formats Strings File MeshEx Json JsonSchema JsonFile.

(** All values inside of a value, each with the schema of its type. *)
Fixpoint parts (s : schema) (v : val) : list (schema * val) :=
  (s, v) ::
  match s, v with
  | SStruct fs, VStruct vs => List.concat (map2 (fun p v' => parts (snd p) v') fs vs)
  | SWrap s', VStruct [v'] => parts s' v'
  | SRel s', VPtr (Some v') | SAbs s', VPtr (Some v') => parts s' v'
  | SArr s', VArr vs | SFix _ s', VArr vs => flat_map (parts s') vs
  | SCase vs, VPtr (Some (VCase tag (VStruct [v']))) =>
      (fix go (vs : list (Z * string * schema)) : list (schema * val) :=
         match vs with
         | [] => []
         | (t, _, s') :: r => if tag =? t then parts s' v' else go r
         end) vs
  | SEnum vs, VCase tag v' =>
      (fix go (vs : list (Z * string * schema)) : list (schema * val) :=
         match vs with
         | [] => []
         | (t, _, s') :: r => if tag =? t then parts s' v' else go r
         end) vs
  | SDef _ _ s', v' => parts s' v'
  | _, _ => []
  end.

(** Nothing but null pointers and units: written as null. *)
Fixpoint nullish (s : schema) (v : val) : bool :=
  match s, v with
  | SUnit, _ => true
  | SRel _, VPtr None | SAbs _, VPtr None => true
  | SRel s', VPtr (Some v') | SAbs s', VPtr (Some v') => nullish s' v'
  | SWrap s', VStruct [v'] => nullish s' v'
  | SDef _ _ s', v' => nullish s' v'
  | _, _ => false
  end.

(** A float that is an infinity or NaN: the exponent bits are all ones. *)
Definition not_a_number (p : schema * val) : Prop :=
  exists n, p = (SF32, VInt n) /\ (n / 2 ^ 23) mod 2 ^ 8 = 255.

(** A string that is not UTF-8 *)
Definition not_text (p : schema * val) : Prop :=
  exists bs, p = (SCStr, VBytes bs) /\ utf8_valid bs = false.

(** A pointer to nothing but null *)
Definition hidden_null (p : schema * val) : Prop :=
  exists s v, (p = (SRel s, VPtr (Some v)) \/ p = (SAbs s, VPtr (Some v))) /\ nullish s v = true.

Definition finite_floats (s : schema) (v : val) : Prop :=
  Forall (fun p => ~ not_a_number p) (parts s v).

(** The values JSON can hold. *)
Definition representable (s : schema) (v : val) : Prop :=
  Forall (fun p => ~ not_a_number p /\ ~ not_text p /\ ~ hidden_null p) (parts s v).

(** What becomes of a value with finite floats: a string that is not UTF-8 becomes empty,
    a pointer to nothing but null becomes null. *)
Fixpoint clean (s : schema) (v : val) : val :=
  match s, v with
  | SStruct fs, VStruct vs => VStruct (map2 (fun p v' => clean (snd p) v') fs vs)
  | SWrap s', VStruct [v'] => VStruct [clean s' v']
  | SRel s', VPtr (Some v') | SAbs s', VPtr (Some v') =>
      if nullish s' v' then VPtr None else VPtr (Some (clean s' v'))
  | SArr s', VArr vs | SFix _ s', VArr vs => VArr (map (clean s') vs)
  | SCStr, VBytes bs => VBytes (if utf8_valid bs then bs else [])
  | SCase vs, VPtr (Some (VCase tag (VStruct [v']))) =>
      (fix go (vs : list (Z * string * schema)) : val :=
         match vs with
         | [] => v
         | (t, _, s') :: r =>
             if tag =? t then VPtr (Some (VCase tag (VStruct [clean s' v']))) else go r
         end) vs
  | SEnum vs, VCase tag v' =>
      (fix go (vs : list (Z * string * schema)) : val :=
         match vs with
         | [] => v
         | (t, _, s') :: r => if tag =? t then VCase tag (clean s' v') else go r
         end) vs
  | SDef _ _ s', v' => clean s' v'
  | _, _ => v
  end.

(** The same for the three types of document. *)
Definition document_schema (d : document) : schema :=
  match d with
  | DSsbh f =>
      match schema_find (fver f) (schemas (fkind f)) with Some (_, s) => s | None => SUnit end
  | DMeshEx _ => s_meshex_MeshEx
  | DAdj _ => s_adj_Adj
  end.
Definition document_value (d : document) : val :=
  match d with
  | DSsbh f => fbody f
  | DMeshEx x => meshex_val x
  | DAdj x => adj_val x
  end.
Definition document_ok (d : document) : Prop :=
  match d with
  | DSsbh f => file_ok f
  | DMeshEx x => meshex_ok x = true
  | DAdj x => adj_ok x = true
  end.
Definition representable_document (d : document) : Prop :=
  representable (document_schema d) (document_value d).
Definition finite_document (d : document) : Prop :=
  finite_floats (document_schema d) (document_value d).
Definition clean_document (d : document) : document :=
  match d with
  | DSsbh f => DSsbh (mkFile (fkind f) (fver f) (clean (document_schema d) (fbody f)))
  | DMeshEx x =>
      match meshex_of_val (clean s_meshex_MeshEx (meshex_val x)) with
      | Some y => DMeshEx y
      | None => d
      end
  | DAdj x => d
  end.

(** The same document with the members of some objects in another order. *)
Inductive reordered : json -> json -> Prop :=
| ro_refl j : reordered j j
| ro_trans a b c : reordered a b -> reordered b c -> reordered a c
| ro_element l j j' r : reordered j j' -> reordered (JArr (l ++ j :: r)) (JArr (l ++ j' :: r))
| ro_member l x j j' r :
    reordered j j' -> reordered (JObj (l ++ (x, j) :: r)) (JObj (l ++ (x, j') :: r))
| ro_order ms ms' : Permutation ms ms' -> reordered (JObj ms) (JObj ms').

(** Documents whose strings are UTF-8 text without zero characters.  The bounds on lengths
    and on the bits of a float hold of every document in memory. *)
Definition proper_text (t : list Z) : bool :=
  utf8_valid t && forallb (fun c => negb (c =? 0)) t && (Z.of_nat (List.length t) <? 2 ^ 64).
Fixpoint proper (j : json) : bool :=
  match j with
  | JStr t => proper_text t
  | JArr js => (Z.of_nat (List.length js) <? 2 ^ 64) && forallb proper js
  | JObj ms => forallb (fun m => proper (snd m)) ms
  | JFloat n => (0 <=? n) && (n <? 2 ^ 32)
  | _ => true
  end.

(** The counts in MeshEx and Adj files are 32 bits. *)
Definition countable (d : document) : Prop :=
  match d with
  | DSsbh _ => True
  | DMeshEx x =>
      opt_len (mx_groups x) < 2 ^ 32 /\ opt_len (mx_entries x) < 2 ^ 32 /\ opt_len (mx_flags x) < 2 ^ 32
  | DAdj x => zlen (ad_entries x) < 2 ^ 32
  end.

(** MeshEx has a flag for each entry. *)
Definition balanced (d : document) : Prop :=
  match d with DMeshEx x => opt_len (mx_entries x) = opt_len (mx_flags x) | _ => True end.
