(** The code BinRead stands for does what [read] says of the descriptor of the type. *)
From Coq Require Import Lia ZifyBool ZifyNat ZifyN.
From Verif Require Import Bytes BytesFacts Ssbh Formats File Derive Elab Items SerdeItems Serde
  DeriveFacts Source SourceFacts JsonSchema SerdeFacts BinRead.
Ltac Zify.zify_post_hook ::= ZifyBool.elim_bool_cstr; Z.to_euclidean_division_equations.
Open Scope string_scope.
Open Scope Z_scope.

(** ** Attributes *)
Lemma attr_args_cons path a l : attr_args path (a :: l) =
  ((if (at_path a =? path)%string then match at_args a with Some m => m | None => [] end else []) ++ attr_args path l)%list.
Proof. reflexivity. Qed.

Lemma no_args_pad l : attr_args "br" l = [] -> br_pad l = 0.
Proof.
  induction l as [|a l IH]; auto. rewrite attr_args_cons. cbn [br_pad]. destruct (at_path a =? "br")%string; auto.
  intros H. apply app_eq_nil in H as [H1 H2]. destruct (at_args a) as [[|m r]|]; try discriminate; auto.
Qed.

Lemma pad_br l n : pad_after l = Some n -> br_pad l = n.
Proof.
  unfold pad_after. destruct (attr_args "br" l) as [|m [|m' r]] eqn:E.
  - intros H. inversion H. now apply no_args_pad.
  - destruct m as [|[|k [|]] [n'| |]| | |]; try discriminate. destruct (k =? "pad_after")%string eqn:K; try discriminate.
    apply String.eqb_eq in K. subst k. intros H. inversion H; subst n'. clear H.
    revert E. induction l as [|a l IH]; [discriminate|]. rewrite attr_args_cons. cbn [br_pad].
    destruct (at_path a =? "br")%string; [|exact IH].
    destruct (at_args a) as [[|m r]|]; cbn [app]; try exact IH.
    intros H. inversion H as [[H1 H2]]. apply app_eq_nil in H2 as [-> _]. reflexivity.
  - destruct m as [|[|k [|]] [n'| |]| | |]; discriminate.
Qed.

(** ** Loops *)
Lemma first_variant_none {A} seen (l : list (bool * res A)) : forallb (fun x => negb (fst x)) l = true ->
  first_variant seen l = Err (match seen with Some e => e | None => ENoVariant end).
Proof.
  induction l as [|[c r] l IH]; cbn [first_variant forallb fst]; auto. destruct c; [discriminate|auto].
Qed.

(** At most one variant is not ruled out. *)
Lemma first_variant_one {A} (l : list (bool * res A)) r : forallb (fun x => negb (fst x)) l = true ->
  first_variant None ((true, r) :: l) = r.
Proof.
  intros H. cbn [first_variant]. destruct r; auto. now rewrite first_variant_none.
Qed.

Lemma read_elements_ext f g n p : (forall p, f p = g p) -> read_elements f n p = read_elements g n p.
Proof.
  intros E. unfold read_elements. rewrite !iter_z_nat.
  assert (X : forall k s, iter_nat k (read_push f) s = iter_nat k (read_push g) s).
  { induction k as [|k IH]; intros [acc q]; cbn [iter_nat]; auto. cbn [read_push]. rewrite E.
    destruct (g q) as [[v q']| |]; cbn [bind]; auto. }
  now rewrite X.
Qed.

Lemma existsb_insert n x l : existsb (Z.eqb n) (insert x l) = (n =? x) || existsb (Z.eqb n) l.
Proof.
  induction l as [|y l IH]; cbn [insert existsb]; auto. destruct (x <=? y); cbn [existsb]; auto.
  rewrite IH. destruct (n =? y), (n =? x); reflexivity.
Qed.

Lemma existsb_sort n l : existsb (Z.eqb n) (sort l) = existsb (Z.eqb n) l.
Proof.
  induction l as [|x l IH]; cbn [existsb]; auto. change (sort (x :: l)) with (insert x (sort l)).
  now rewrite existsb_insert, IH.
Qed.

(** ** What is asked of the declarations *)
Fixpoint z_nodup (l : list Z) : bool :=
  match l with [] => true | x :: r => negb (existsb (Z.eqb x) r) && z_nodup r end.

Definition fields_readable (fs : list fld) : bool :=
  forallb (fun f => match pad_after (f_attrs f) with Some _ => true | None => false end) fs.

(** Only known attributes of binrw, the same repr for binrw and SsbhWrite, different tags. *)
Fixpoint readable (c : cty) : bool :=
  match c with
  | CLib _ => true
  | CRel c | CAbs _ c | CArr c | CFix _ c | CVec _ c => readable c
  | CItem it cs =>
      match i_data it with
      | DStruct fs => match attr_args "br" (i_attrs it) with [] => fields_readable (fields_list fs) | _ => false end
      | DEnum vs =>
          match get_write_options (i_attrs it), br_repr (i_attrs it) with
          | Ok o, Some w => match op_repr o with
                            | Some r => match width r with Ok w' => w =? w' | _ => false end
                            | None => false
                            end
          | _, _ => false
          end
      | DUnion => false
      end && forallb readable cs
  | CCase it vs =>
      z_nodup (map fst vs) && forallb (fun v => fields_readable (fields_list (v_fields v))) (variants it) &&
      forallb (fun x => forallb readable (snd (snd x))) vs
  end.

(** ** Types *)
Lemma gen_read_struct it fs cs b p : i_data it = DStruct fs ->
  gen_read (CItem it cs) b p = let* (vs, q) := gen_fields b (fields_list fs) cs p in Ok (VStruct vs, q).
Proof. intros E. cbn [gen_read]. rewrite E. reflexivity. Qed.

Definition reads (c : cty) : Prop := forall T, erase c = Some T -> readable c = true -> forall b p, gen_read c b p = read T b p.

Section read_fields.
Context (b : list Z).
Fixpoint read_fields (fs : list (ty * (Z * Z))) (p : Z) : res (list val * Z) :=
  match fs with
  | [] => Ok ([], p)
  | (t', (_, rp)) :: fr =>
      let* (v, p1) := read t' b p in
      let* (vs, p2) := read_fields fr (p1 + rp) in
      Ok (v :: vs, p2)
  end.
End read_fields.

Lemma read_struct_fields fs sp aa al b p :
  read (TStruct fs sp aa al) b p = let* (vs, q) := read_fields b fs p in Ok (VStruct vs, q).
Proof. reflexivity. Qed.

Lemma fields_read cs : Forall reads cs -> forall fs ts fts b p,
  erases cs = Some ts -> fields_ty fs ts = Some fts -> fields_readable fs = true -> forallb readable cs = true ->
  gen_fields b fs cs p = read_fields b fts p.
Proof.
  induction 1 as [|c cs R _ IH]; intros fs ts fts b p E F P Q; cbn [erases] in E.
  - inversion E; subst. destruct fs; [|discriminate]. inversion F. reflexivity.
  - destruct (erase c) as [t|] eqn:Et; try discriminate. destruct (erases cs) as [r|]; try discriminate.
    inversion E; subst ts. destruct fs as [|f fs]; [discriminate|]. cbn [fields_ty] in F. unfold field_ty in F.
    destruct (get_write_options (f_attrs f)); try discriminate.
    destruct (op_aligned a); try discriminate. destruct (fields_ty fs r) as [fr|] eqn:F'; try discriminate.
    inversion F; subst fts. cbn [fields_readable forallb] in P, Q. apply andb_prop in P as [P1 P2], Q as [Q1 Q2].
    destruct (pad_after (f_attrs f)) as [n|] eqn:Pn; try discriminate.
    cbn [gen_fields read_fields]. rewrite (R _ Et Q1), (pad_br _ _ Pn), Pn.
    destruct (read t b p) as [[v p1]| |]; cbn [bind get]; auto.
    now rewrite (IH fs r fr b (p1 + n) eq_refl F' P2 Q2).
Qed.

Lemma variant_fields it v ts T : variant_ty it v ts = Some T -> exists x l sp aa al,
  find_variant v (variants it) = Some x /\ fields_ty (fields_list (v_fields x)) ts = Some l /\ T = TStruct l sp aa al.
Proof.
  unfold variant_ty. destruct (get_write_options (i_attrs it)); try discriminate.
  destruct (derive it); try discriminate. destruct (find_variant v (variants it)) as [x|]; try discriminate.
  destruct (get_write_options (v_attrs x)); try discriminate.
  match goal with |- (if ?c then _ else _) = _ -> _ => destruct c; try discriminate end.
  destruct (fields_ty (fields_list (v_fields x)) ts) as [l|] eqn:E; try discriminate.
  repeat match goal with |- (if ?c then _ else _) = _ -> _ => destruct c; try discriminate end;
    intros H; inversion H; eauto 10.
Qed.

Lemma find_variant_in v vs x : find_variant v vs = Some x -> In x vs.
Proof.
  induction vs as [|y vs IH]; cbn [find_variant]; [discriminate|].
  destruct (v =? v_name y)%string; intros H; [inversion H; now left|right; auto].
Qed.

(** The variants of [gen_read (CCase it vs)]. *)
Fixpoint gen_cases (it : item) (vs : list (Z * (string * list cty))) (data_type : Z) (b : list Z) (q : Z) : list (bool * res (val * Z)) :=
  match vs with
  | [] => []
  | (tag, (name, cs)) :: r =>
      (data_type =? tag,
       let* v := get (find_variant name (variants it)) in
       let* (vs, q) := gen_fields b (fields_list (v_fields v)) cs q in
       Ok (VStruct vs, q)) :: gen_cases it r data_type b q
  end.

Section read_cases.
Context (data_type : Z) (b : list Z) (q : Z).
Fixpoint read_cases (vs : list (Z * ty)) : res (val * Z) :=
  match vs with
  | [] => Err ENoVariant
  | (tg, t') :: r => if data_type =? tg then read t' b q else read_cases r
  end.
End read_cases.

Lemma read_case vs b p : read (TEnum vs) b p =
  let* (relative_offset, p1) := read_int 8 b p in
  let* (data_type, saved_pos) := read_int 8 b p1 in
  if relative_offset =? 0 then Ok (VPtr None, saved_pos)
  else
    let* seek_pos := absolute_offset_checked p relative_offset in
    let* (v, _) := read_cases data_type b seek_pos vs in
    Ok (VPtr (Some (VCase data_type v)), saved_pos).
Proof. reflexivity. Qed.

Lemma gen_read_case it vs b p : gen_read (CCase it vs) b p =
  let* (relative_offset, p1) := read_int 8 b p in
  let* (data_type, saved_pos) := read_int 8 b p1 in
  if relative_offset =? 0 then Ok (VPtr None, saved_pos)
  else
    let* seek_pos := absolute_offset_checked p relative_offset in
    let* (v, _) := first_variant None (gen_cases it vs data_type b seek_pos) in
    Ok (VPtr (Some (VCase data_type v)), saved_pos).
Proof.
  cbn [gen_read]. destruct (read_int 8 b p) as [[ro p1]| |]; cbn [bind]; auto.
  destruct (read_int 8 b p1) as [[dt sp]| |]; cbn [bind]; auto. destruct (ro =? 0); auto.
  destruct (absolute_offset_checked p ro) as [q| |]; cbn [bind]; auto.
  match goal with |- bind (first_variant None ?x) _ = _ => assert (X : x = gen_cases it vs dt b q) end.
  { clear. induction vs as [|[tag [name cs]] r IH]; auto. cbn [gen_cases]. f_equal. exact IH. }
  now rewrite X.
Qed.

Lemma cases_false it vs dt b q : existsb (Z.eqb dt) (map fst vs) = false ->
  forallb (fun x => negb (fst x)) (gen_cases it vs dt b q) = true.
Proof.
  induction vs as [|[tag [name cs]] r IH]; auto. cbn [map existsb fst gen_cases forallb]. intros H.
  apply orb_false_iff in H as [-> H]. auto.
Qed.

Lemma cases_read it vs : Forall (fun x => Forall reads (snd (snd x))) vs -> forall l dt b q,
  erase_cases it vs = Some l -> z_nodup (map fst vs) = true ->
  forallb (fun v => fields_readable (fields_list (v_fields v))) (variants it) = true ->
  forallb (fun x => forallb readable (snd (snd x))) vs = true ->
  first_variant None (gen_cases it vs dt b q) = read_cases dt b q l.
Proof.
  intros H l dt b q E N A. revert l E N.
  induction H as [|[tag [name cs]] vs R _ IH]; intros l E N Q; cbn [erase_cases] in E.
  - inversion E. reflexivity.
  - destruct (erases cs) as [ts|] eqn:Es; try discriminate. destruct (variant_ty it name ts) as [t|] eqn:V; try discriminate.
    destruct (erase_cases it vs) as [lr|]; try discriminate. inversion E; subst l.
    cbn [map z_nodup fst forallb snd] in N, Q. apply andb_prop in N as [N1 N2], Q as [Q1 Q2]. cbn [snd] in R.
    apply negb_true_iff in N1. cbn [gen_cases read_cases]. destruct (Z.eqb_spec dt tag) as [->|D].
    + rewrite first_variant_one by (apply cases_false; auto).
      destruct (variant_fields _ _ _ _ V) as (x & fl & sp & aa & al & F & FT & ->). rewrite F. cbn [get bind].
      rewrite read_struct_fields. rewrite (fields_read cs R (fields_list (v_fields x)) ts fl b q Es FT); auto.
      eapply forallb_forall in A; [exact A|]. eapply find_variant_in; eauto.
    + cbn [first_variant]. apply IH; auto.
Qed.

Theorem gen_reads c : reads c.
Proof.
  induction c using cty_ind'; unfold reads; intros T E Q b p.
  - cbn in E. inversion E. reflexivity.
  - cbn [erase] in E. destruct (erase c) as [t|] eqn:Et; cbn in E; try discriminate. inversion E; subst T.
    cbn [gen_read read]. destruct (read_int 8 b p) as [[ro p1]| |]; cbn [bind]; auto. destruct (ro =? 0); auto.
    destruct (absolute_offset_checked p ro); cbn [bind]; auto. now rewrite (IHc _ Et Q).
  - cbn [erase] in E. destruct (erase c) as [t|] eqn:Et; cbn in E; try discriminate. inversion E; subst T.
    cbn [gen_read read]. destruct (read_int w b p) as [[ro p1]| |]; cbn [bind]; auto. destruct (ro =? 0); auto.
    now rewrite (IHc _ Et Q).
  - cbn [erase] in E. destruct (erase c) as [t|] eqn:Et; cbn in E; try discriminate. inversion E; subst T.
    cbn [gen_read read]. destruct (read_int 8 b p) as [[ro p1]| |]; cbn [bind]; auto.
    destruct (read_int 8 b p1) as [[n p2]| |]; cbn [bind]; auto.
    destruct (absolute_offset_checked p ro) as [q| |]; cbn [bind]; auto.
    now rewrite (read_elements_ext (gen_read c b) (read t b)) by (intros; now apply (IHc _ Et)).
  - cbn [erase] in E. destruct (erase c) as [t|] eqn:Et; cbn in E; try discriminate. inversion E; subst T.
    cbn [gen_read read]. now rewrite (read_elements_ext (gen_read c b) (read t b)) by (intros; now apply (IHc _ Et)).
  - cbn [erase] in E. destruct (erase c) as [t|] eqn:Et; cbn in E; try discriminate. inversion E; subst T.
    cbn [gen_read read]. now rewrite (read_elements_ext (gen_read c b) (read t b)) by (intros; now apply (IHc _ Et)).
  - rewrite erase_item in E. destruct (erases cs) as [ts|] eqn:Es; try discriminate.
    cbn [readable] in Q. apply andb_prop in Q as [Q1 Q2]. unfold struct_ty in E.
    destruct (get_write_options (i_attrs it)) as [o| |]; try discriminate.
    destruct (i_data it) as [fs|vs|] eqn:D; try discriminate.
    + destruct (none (op_repr o) && none (op_magic o) && fields_ok fs false); try discriminate.
      destruct (fields_ty (fields_list fs) ts) as [l|] eqn:F; cbn [option_map] in E; try discriminate. inversion E; subst T.
      destruct (attr_args "br" (i_attrs it)); try discriminate.
      rewrite (gen_read_struct it fs) by auto. rewrite read_struct_fields.
      now rewrite (fields_read cs H (fields_list fs) ts l b p Es F Q1 Q2).
    + destruct (op_repr o) as [r|]; try discriminate. destruct ts; try discriminate.
      destruct (width r) as [w| |]; try discriminate. destruct (none (op_pad o) && none (op_aligned o) && none (op_alignment o)); try discriminate.
      inversion E; subst T. destruct (br_repr (i_attrs it)) as [w'|] eqn:B; try discriminate.
      apply Z.eqb_eq in Q1. subst w'. cbn [gen_read read]. rewrite D, B. cbn [get bind].
      destruct (read_int w b p) as [[n p1]| |]; cbn [bind]; auto. rewrite existsb_sort. unfold item_tags. 
      rewrite D. reflexivity.
  - rewrite erase_case in E. destruct (case_ok it); try discriminate.
    destruct (erase_cases it vs) as [l|] eqn:El; cbn [option_map] in E; try discriminate. inversion E; subst T.
    cbn [readable] in Q. apply andb_prop in Q as [Q Q3]. apply andb_prop in Q as [Q1 Q2].
    rewrite gen_read_case, read_case. destruct (read_int 8 b p) as [[ro p1]| |]; cbn [bind]; auto.
    destruct (read_int 8 b p1) as [[n p2]| |]; cbn [bind]; auto. destruct (ro =? 0); auto.
    destruct (absolute_offset_checked p ro) as [q| |]; cbn [bind]; auto.
    now rewrite (cases_read it vs H l n b q El Q1 Q2 Q3).
Qed.

(** ** Formats *)
Fixpoint ver_nodup (l : list (Z * Z)) : bool :=
  match l with [] => true | x :: r => negb (existsb (fun y => ver_eqb x y) r) && ver_nodup r end.

(** The variants of a format: known attributes, different versions. *)
Definition variants_readable (it : item) (l : list ((Z * Z) * (string * list cty))) : bool :=
  ver_nodup (map fst l) && forallb (fun v => fields_readable (fields_list (v_fields v))) (variants it) &&
  forallb (fun x => forallb readable (snd (snd x))) l.

Definition gen_variant (it : item) (ver : Z * Z) (b : list Z) (p : Z) (x : (Z * Z) * (string * list cty)) : bool * res (val * Z) :=
  (ver_eqb ver (fst x),
   match find_variant (fst (snd x)) (variants it) with
   | Some v =>
       let* (vs, q) := gen_fields b (fields_list (v_fields v)) (snd (snd x)) p in
       Ok (VStruct vs, q)
   | None => Err EType
   end).

Lemma ver_eqb_eq a b : ver_eqb a b = true <-> a = b.
Proof.
  destruct a, b. unfold ver_eqb. cbn [fst snd]. rewrite andb_true_iff, !Z.eqb_eq. split; [intros [-> ->]; auto|].
  intros H. inversion H. auto.
Qed.

Lemma reads_all cs : Forall reads cs.
Proof. apply Forall_forall. intros. apply gen_reads. Qed.

Lemma variants_read it ver b p l : forall vts,
  omap (fun x =>
          match omap erase (snd (snd x)) with
          | Some ts => option_map (fun t => (fst x, t)) (variant_ty it (fst (snd x)) ts)
          | None => None
          end) l = Some vts ->
  variants_readable it l = true ->
  first_variant None (map (gen_variant it ver b p) l) =
  match lookup_ver ver vts with Some t => read t b p | None => Err ENoVariant end.
Proof.
  unfold variants_readable. intros vts O R. apply andb_prop in R as [R R3]. apply andb_prop in R as [R1 R2].
  revert vts O. induction l as [|[v' [name cs]] r IH]; intros vts O; cbn [omap] in O.
  - inversion O; subst. reflexivity.
  - cbn [fst snd] in O. rewrite omap_erases in O. destruct (erases cs) as [ts|] eqn:E; try discriminate.
    destruct (variant_ty it name ts) as [t|] eqn:V; cbn [option_map] in O; try discriminate.
    match type of O with context [omap ?f r] => destruct (omap f r) as [vr|] eqn:Er; try discriminate end.
    inversion O; subst vts. cbn [map ver_nodup fst forallb snd] in R1, R3.
    apply andb_prop in R1 as [N1 N2], R3 as [Q1 Q2].
    cbn [lookup_ver map]. unfold gen_variant at 1. cbn [fst snd]. destruct (ver_eqb ver v') eqn:D.
    + apply ver_eqb_eq in D. subst v'. rewrite first_variant_one.
      * destruct (variant_fields _ _ _ _ V) as (x & fl & sp & aa & al & F & FT & ->). rewrite F.
        rewrite read_struct_fields. rewrite (fields_read cs (reads_all cs) (fields_list (v_fields x)) ts fl b p E FT); auto.
        eapply forallb_forall in R2; [exact R2|]. eapply find_variant_in; eauto.
      * apply negb_true_iff in N1. clear -N1. induction r as [|y r IH]; auto. cbn [map existsb forallb fst] in *.
        apply orb_false_iff in N1 as [N1 N2]. unfold gen_variant at 1. cbn [fst]. rewrite N1. cbn. auto.
    + cbn [first_variant]. apply IH; auto.
Qed.

Definition readable_format (k : kind) : bool :=
  match elab_variants declarations depth (format_name k) with
  | Some (it, l) => variants_readable it l
  | None => false
  end.

Lemma formats_readable k : readable_format k = true.
Proof. destruct k; vm_compute; reflexivity. Qed.

Lemma formats_declared k : elab_versions declarations depth (format_name k) = Some (versions k).
Proof. destruct k; vm_compute; reflexivity. Qed.

Theorem format_read k ver b p : gen_format declarations depth (format_name k) ver b p =
  match format k ver with Some t => read t b p | None => Err ENoVariant end.
Proof.
  pose proof (formats_readable k) as R. pose proof (formats_declared k) as H. unfold readable_format, elab_versions in *.
  unfold gen_format. destruct (elab_variants declarations depth (format_name k)) as [[it l]|]; try discriminate.
  exact (variants_read it ver b p l _ H R).
Qed.

(** ** Files *)

Definition versioned_of (k : kind) : rty := RPath "lib::Versioned" [RPath (format_name k) []].

Lemma find_versioned : find_decl "lib::Versioned" declarations = Some i_lib_Versioned.
Proof. vm_compute. reflexivity. Qed.
Lemma find_ssbh : find_decl "lib::Ssbh" declarations = Some i_lib_Ssbh.
Proof. vm_compute. reflexivity. Qed.
Lemma find_file : find_decl "lib::SsbhFile" declarations = Some i_lib_SsbhFile.
Proof. vm_compute. reflexivity. Qed.

Lemma versioned_read k b p : gen_versioned declarations depth (versioned_of k) b p =
  let* (major, p2) := read_int 2 b p in
  let* (minor, p3) := read_int 2 b p2 in
  match format k (major, minor) with
  | None => Err ENoVariant
  | Some t => let* (v, q) := read t b p3 in Ok (((major, minor), v), q)
  end.
Proof.
  unfold gen_versioned, versioned_of. rewrite find_versioned. unfold i_lib_Versioned.
  cbn [f_ty f_attrs]. change (width "u16") with (@Ok Z 2). cbn [bind].
  match goal with |- (if ?c then _ else _) = _ => change c with true end. cbv iota.
  destruct (read_int 2 b p) as [[ma p2]| |]; cbn [bind]; auto.
  destruct (read_int 2 b p2) as [[mi p3]| |]; cbn [bind]; auto.
  rewrite format_read. destruct (format k (ma, mi)); auto.
Qed.

(** One variant of lib::Ssbh. *)
Definition kind_variant (b : list Z) (p : Z) (k : kind) : bool * res ((string * ((Z * Z) * val)) * Z) :=
  match get_bytes 4 b p with
  | None => (true, Err EEof)
  | Some m' =>
      (list_eqb m' (read_magic k),
       let* (r, q) := gen_versioned declarations depth (versioned_of k) b (p + 4) in Ok ((kind_name k, r), q))
  end.

Lemma ssbh_variants b p : gen_ssbh declarations depth "lib::Ssbh" b p = first_variant None (map (kind_variant b p) kinds).
Proof. unfold gen_ssbh. rewrite find_ssbh. reflexivity. Qed.

Lemma list_eqb_eq a b : list_eqb a b = true -> a = b.
Proof.
  revert b. induction a as [|x a IH]; intros [|y b]; cbn [list_eqb]; try discriminate; auto.
  intros H. apply andb_prop in H as [H1 H2]. apply Z.eqb_eq in H1. subst. f_equal. auto.
Qed.

Lemma magic_inj k k' : list_eqb (read_magic k) (read_magic k') = true -> k = k'.
Proof. destruct k, k'; cbn; try discriminate; auto. Qed.

Lemma kinds_first m (r : kind -> res ((string * ((Z * Z) * val)) * Z)) ks : NoDup ks ->
  first_variant None (map (fun k => (list_eqb m (read_magic k), r k)) ks) =
  match find_kind m ks with Some k => r k | None => Err ENoVariant end.
Proof.
  induction 1 as [|k ks N _ IH]; cbn [map find_kind]; auto.
  destruct (list_eqb m (read_magic k)) eqn:E.
  - apply list_eqb_eq in E. subst m. apply first_variant_one. clear IH. induction ks as [|k' ks IH]; auto.
    cbn [map forallb fst]. destruct (list_eqb (read_magic k) (read_magic k')) eqn:E.
    + apply magic_inj in E. subst k'. exfalso. apply N. now left.
    + apply IH. intros I. apply N. now right.
  - cbn [first_variant]. auto.
Qed.

Lemma kinds_nodup : NoDup kinds.
Proof. repeat constructor; cbn; intuition discriminate. Qed.

Theorem file_declared b p : gen_file declarations depth b p =
  let* (f, q) := read_file b p in Ok ((kind_name (fkind f), (fver f, fbody f)), q).
Proof.
  unfold gen_file. rewrite find_file. unfold i_lib_SsbhFile. cbn [f_attrs f_ty].
  match goal with |- context [br_magic ?l] => change (br_magic l) with (Some hbss) end.
  match goal with |- context [align_before ?l] => change (align_before l) with (Some 16) end.
  cbv iota. unfold read_file. change (List.length hbss) with 4%nat. change (zlen hbss) with 4.
  destruct (get_bytes 4 b p) as [m|]; auto. destruct (list_eqb m hbss); auto.
  rewrite ssbh_variants. unfold kind_variant. destruct (get_bytes 4 b (round_up (p + 4) 16)) as [m'|].
  - rewrite (kinds_first m' _ _ kinds_nodup). destruct (find_kind m' kinds) as [k|]; auto.
    rewrite versioned_read. destruct (read_int 2 b (round_up (p + 4) 16 + 4)) as [[ma p2]| |]; cbn [bind]; auto.
    destruct (read_int 2 b p2) as [[mi p3]| |]; cbn [bind]; auto. destruct (format k (ma, mi)); auto.
    destruct (read t b p3) as [[v q]| |]; auto.
  - reflexivity.
Qed.
