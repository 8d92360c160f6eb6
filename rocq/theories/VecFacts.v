(** Interleaved vertex buffers. *)
From Coq Require Import Lia ZifyBool ZifyNat ZifyN.
From Verif Require Import Bytes BytesFacts Ssbh VecData MeshData MeshSpec.
Ltac Zify.zify_post_hook ::= ZifyBool.elim_bool_cstr; Z.to_euclidean_division_equations.

Definition everywhere (i : Z) : Prop := True.

Lemma put_app b p x y : 0 <= p -> put (put b p x) (p + zlen x) y = put b p (x ++ y).
Proof.
  intros Hp. pose proof (zlen_nonneg x) as Lx. pose proof (zlen_nonneg y) as Ly. pose proof (zlen_nonneg b) as Lb.
  apply byte_at_ext. intros i. destruct (Z.ltb_spec i 0) as [Hi|Hi]; [rewrite !byte_at_none by lia; reflexivity|].
  destruct x as [|x0 x]; [cbn [put app]; rewrite zlen_nil, Z.add_0_r; reflexivity|].
  destruct y as [|y0 y]; [rewrite app_nil_r; reflexivity|].
  rewrite (put_at _ (p + _)), (put_at b p (x0 :: x)), (put_at b p (_ ++ _)) by lia.
  rewrite put_len by lia. rewrite zlen_app.
  cbn [app negb]. change (x0 :: x ++ y0 :: y) with ((x0 :: x) ++ y0 :: y).
  set (X := x0 :: x) in *. set (Y := y0 :: y) in *.
  assert (AX : 0 < zlen X) by (unfold X in *; rewrite zlen_cons in *; pose proof (zlen_nonneg x); lia).
  assert (AY : 0 < zlen Y) by (unfold Y in *; rewrite zlen_cons in *; pose proof (zlen_nonneg y); lia).
  rewrite !andb_true_r.
  destruct (Z.ltb_spec i p) as [H1|H1].
  - replace ((p + zlen X <=? i) && (i <? p + zlen X + zlen Y)) with false by lia.
    replace ((p <=? i) && (i <? p + zlen X)) with false by lia.
    replace ((p <=? i) && (i <? p + (zlen X + zlen Y))) with false by lia.
    replace (i <? Z.max (zlen b) (p + zlen X)) with true by lia. reflexivity.
  - destruct (Z.ltb_spec i (p + zlen X)) as [H2|H2].
    + replace ((p + zlen X <=? i) && (i <? p + zlen X + zlen Y)) with false by lia.
      replace (i <? Z.max (zlen b) (p + zlen X)) with true by lia.
      replace ((p <=? i) && true) with true by lia.
      replace ((p <=? i) && (i <? p + (zlen X + zlen Y))) with true by lia.
      rewrite !byte_at_nth by lia. rewrite nth_error_app1; [reflexivity|unfold zlen in *; lia].
    + destruct (Z.ltb_spec i (p + zlen X + zlen Y)) as [H3|H3].
      * replace ((p + zlen X <=? i) && true) with true by lia.
        replace ((p <=? i) && (i <? p + (zlen X + zlen Y))) with true by lia.
        rewrite !byte_at_nth by lia. rewrite nth_error_app2 by (unfold zlen in *; lia).
        f_equal. unfold zlen in *; lia.
      * replace ((p + zlen X <=? i) && false) with false by lia.
        replace ((p <=? i) && (i <? p + (zlen X + zlen Y))) with false by lia.
        replace ((p <=? i) && false) with false by lia.
        destruct (Z.ltb_spec i (zlen b)).
        -- replace (i <? Z.max (zlen b) (p + zlen X)) with true by lia. reflexivity.
        -- replace (i <? Z.max (zlen b) (p + zlen X)) with false by lia.
           replace (i <? p + zlen X) with false by lia. reflexivity.
Qed.

Definition comps (w : Z) (row : list Z) : list Z := flat_map (le_bytes (Z.to_nat w)) row.

Lemma write_components_eq w row c : 0 <= snd c -> write_components w row c = write_all (comps w row) c.
Proof.
  revert c; induction row as [|x r IH]; intros [b p] Hc; cbn [write_components comps flat_map snd] in *.
  - unfold write_all. cbn [put fst snd]. rewrite zlen_nil, Z.add_0_r. reflexivity.
  - rewrite IH by (unfold write_all; cbn [snd]; pose proof (zlen_nonneg (le_bytes (Z.to_nat w) x)); lia).
    unfold write_all; cbn [fst snd]. fold (comps w r). rewrite put_app by lia.
    rewrite zlen_app. f_equal. lia.
Qed.

Lemma zlen_comps w row : 0 <= w -> zlen (comps w row) = w * zlen row.
Proof.
  intros Hw. induction row as [|x r IH]; [unfold comps; cbn [flat_map]; rewrite !zlen_nil; lia|].
  unfold comps in *; cbn [flat_map]. rewrite zlen_app, zlen_le_bytes, IH, zlen_cons. lia.
Qed.

Lemma write_vector_shift w rows i offset stride c :
  write_vector_data w rows i offset stride c = write_vector_data w rows 0 (offset + i * stride) stride c.
Proof.
  revert i offset c; induction rows as [|r rows IH]; intros i offset c; cbn [write_vector_data]; [reflexivity|].
  rewrite IH. rewrite (IH (0 + 1)). rewrite Z.mul_0_l, Z.add_0_r.
  replace (offset + (i + 1) * stride) with (offset + i * stride + (0 + 1) * stride) by ring. reflexivity.
Qed.

(** [x] is in one of the [n] ranges of [z] bytes at [p], [p + stride], ... *)
Definition in_rows (p stride n z x : Z) : Prop := exists k, 0 <= k < n /\ p + k * stride <= x < p + k * stride + z.

Lemma write_vector_spec w z rows : 0 <= w -> 0 < z -> (forall row, In row rows -> zlen (comps w row) = z) ->
  forall p stride c, 0 <= p -> z <= stride ->
  let c' := write_vector_data w rows 0 p stride c in
  agree (fun x => ~ in_rows p stride (zlen rows) z x) (fst c) (fst c') /\
  (forall k row, nth_error rows k = Some row ->
     get_bytes (Z.to_nat z) (fst c') (p + Z.of_nat k * stride) = Some (comps w row)) /\
  zlen (fst c') = (if zlen rows =? 0 then zlen (fst c) else Z.max (zlen (fst c)) (p + (zlen rows - 1) * stride + z)) /\
  snd c' = (if zlen rows =? 0 then snd c else p + (zlen rows - 1) * stride + z).
Proof.
  intros Hw Hz. induction rows as [|r rows IH]; intros Hr p stride c Hp Hs; cbn [write_vector_data].
  - rewrite zlen_nil. cbn. repeat split; auto using agree_refl. intros [|k] row E; discriminate.
  - rewrite write_vector_shift, Z.mul_0_l, Z.add_0_r.
    assert (Zr : zlen (comps w r) = z) by (apply Hr; left; reflexivity).
    rewrite write_components_eq by (cbn [snd seek]; lia).
    set (c1 := write_all (comps w r) (seek p c)).
    assert (A1 : agree (fun x => ~ (p <= x < p + z)) (fst c) (fst c1)).
    { intros x y Hx Hy. unfold c1, write_all, seek; cbn [fst snd]. apply put_out; [lia|rewrite Zr; lia|exact Hy]. }
    assert (G1 : get_bytes (Z.to_nat z) (fst c1) p = Some (comps w r)).
    { unfold c1, write_all, seek; cbn [fst snd]. replace (Z.to_nat z) with (length (comps w r)) by (unfold zlen in Zr; lia).
      apply get_put; lia. }
    assert (L1 : zlen (fst c1) = Z.max (zlen (fst c)) (p + z)).
    { unfold c1, write_all, seek; cbn [fst snd]. rewrite put_len by lia.
      destruct (comps w r) eqn:E; [rewrite zlen_nil in Zr; lia|rewrite Zr; reflexivity]. }
    assert (P1 : snd c1 = p + z) by (unfold c1, write_all, seek; cbn [fst snd]; lia).
    destruct (IH (fun row H => Hr row (or_intror H)) (p + 1 * stride) stride c1) as (A2 & G2 & L2 & P2); [lia|lia|].
    replace (p + (0 + 1) * stride) with (p + 1 * stride) by ring.
    set (c' := write_vector_data w rows 0 (p + 1 * stride) stride c1) in *.
    pose proof (zlen_nonneg rows) as Ln. rewrite zlen_cons.
    replace (1 + zlen rows =? 0) with false by lia.
    repeat split.
    + intros x y Hx Hy. apply A2.
      * intros (k & Hk & Hk2). apply Hx. exists (k + 1). split; [lia|].
        replace (p + (k + 1) * stride) with (p + 1 * stride + k * stride) by ring. exact Hk2.
      * apply A1; [|exact Hy]. intros Hk. apply Hx. exists 0. split; [lia|]. rewrite Z.mul_0_l. lia.
    + intros [|k] row E.
      * injection E as <-. change (Z.of_nat 0) with 0. rewrite Z.mul_0_l, Z.add_0_r.
        refine (get_bytes_agree _ _ _ _ _ _ _ A2 G1).
        intros x Hx (k & Hk & Hk2). assert (0 <= k * stride) by (apply Z.mul_nonneg_nonneg; lia). lia.
      * cbn [nth_error] in E. rewrite <- (G2 _ _ E). f_equal. rewrite Nat2Z.inj_succ. ring.
    + rewrite L2, L1. destruct (Z.eqb_spec (zlen rows) 0) as [E0|E0].
      * rewrite E0. replace (1 + 0 - 1) with 0 by lia. lia.
      * replace (1 + zlen rows - 1) with (zlen rows - 1 + 1) by lia.
        replace (p + (zlen rows - 1 + 1) * stride) with (p + 1 * stride + (zlen rows - 1) * stride) by ring.
        assert (0 <= (zlen rows - 1) * stride) by (apply Z.mul_nonneg_nonneg; lia). lia.
    + rewrite P2, P1. destruct (Z.eqb_spec (zlen rows) 0) as [E0|E0].
      * rewrite E0. lia.
      * replace (1 + zlen rows - 1) with (zlen rows - 1 + 1) by lia. ring.
Qed.

Lemma component_size_pos t : 0 < component_size t.
Proof. destruct t; cbn; lia. Qed.
Lemma size_comps t : size_in_bytes t = component_size t * Z.of_nat (dim_count (type_dim t)).
Proof. destruct t; reflexivity. Qed.
Lemma size_pos t : 0 < size_in_bytes t.
Proof. destruct t; reflexivity. Qed.

Definition sizes (es : list encoded) : Z := zsum (map (fun e => size_in_bytes (enc_type e)) es).
Lemma sizes_nonneg es : 0 <= sizes es.
Proof.
  unfold sizes. induction es as [|e r IH]; cbn [map zsum fold_right]; [lia|].
  pose proof (size_pos (enc_type e)). unfold zsum in IH. lia.
Qed.
Lemma sizes_cons e es : sizes (e :: es) = size_in_bytes (enc_type e) + sizes es.
Proof. reflexivity. Qed.

Lemma row_ok_len t row : row_ok t row = true -> zlen (comps (component_size t) row) = size_in_bytes t.
Proof.
  intros H. unfold row_ok in H. apply andb_prop in H as [H _].
  pose proof (component_size_pos t). rewrite zlen_comps by lia. rewrite size_comps. lia.
Qed.

Lemma encoded_ok_rows n e row : encoded_ok n e = true -> In row (enc_rows e) -> row_ok (enc_type e) row = true.
Proof. intros H Hr. unfold encoded_ok in H. apply andb_prop in H as [_ H]. rewrite forallb_forall in H. auto. Qed.
Lemma encoded_ok_len n e : encoded_ok n e = true -> zlen (enc_rows e) = n.
Proof. intros H. unfold encoded_ok in H. apply andb_prop in H as [H _]. lia. Qed.

Lemma write_buffer_spec n stride base es : 0 <= base -> 0 <= n -> (forall e, In e es -> encoded_ok n e = true) ->
  forall o c, 0 <= o -> o + sizes es <= stride ->
  let c' := write_buffer es (base + o) stride c in
  agree (fun x => ~ in_rows (base + o) stride n (sizes es) x) (fst c) (fst c') /\
  (forall j e, nth_error es j = Some e -> forall k row, nth_error (enc_rows e) k = Some row ->
     get_bytes (Z.to_nat (size_in_bytes (enc_type e))) (fst c') (base + o + sizes (firstn j es) + Z.of_nat k * stride)
     = Some (comps (component_size (enc_type e)) row)) /\
  zlen (fst c') = (if (n =? 0) || (sizes es =? 0) then zlen (fst c) else Z.max (zlen (fst c)) (base + o + (n - 1) * stride + sizes es)) /\
  snd c' = (if (n =? 0) || (sizes es =? 0) then snd c else base + o + (n - 1) * stride + sizes es).
Proof.
  intros Hb Hn. induction es as [|e es IH]; intros He o c Ho Hs; cbn [write_buffer].
  - change (sizes []) with 0. replace (0 =? 0) with true by reflexivity. rewrite orb_true_r.
    repeat split; auto using agree_refl. intros [|j] e E; discriminate.
  - set (z := size_in_bytes (enc_type e)) in *.
    assert (Pz : 0 < z) by apply size_pos. pose proof (sizes_nonneg es) as Ps.
    rewrite sizes_cons in *. fold z in Hs |- *.
    assert (Oe := He e (or_introl eq_refl)). pose proof (encoded_ok_len _ _ Oe) as Le.
    destruct (write_vector_spec (component_size (enc_type e)) z (enc_rows e)) with (p := base + o) (stride := stride) (c := c)
      as (A1 & G1 & L1 & P1); [pose proof (component_size_pos (enc_type e)); lia|lia| |lia|lia|].
    { intros row Hr. apply row_ok_len. eapply encoded_ok_rows; eauto. }
    fold (write_encoded e (base + o) stride c) in A1, G1, L1, P1. rewrite Le in *.
    set (c1 := write_encoded e (base + o) stride c) in *.
    destruct (IH (fun e H => He e (or_intror H)) (o + z) c1) as (A2 & G2 & L2 & P2); [lia|lia|].
    replace (base + o + z) with (base + (o + z)) by ring.
    set (c' := write_buffer es (base + (o + z)) stride c1) in *.
    replace (z + sizes es =? 0) with false by lia. rewrite orb_false_r.
    repeat split.
    + intros x y Hx Hy. apply A2.
      * intros (k & Hk & Hk2). apply Hx. exists k. lia.
      * apply A1; [|exact Hy]. intros (k & Hk & Hk2). apply Hx. exists k. lia.
    + intros [|j] e' E k row Ek.
      * injection E as <-. cbn [firstn]. change (sizes []) with 0. rewrite Z.add_0_r.
        refine (get_bytes_agree _ _ _ _ _ _ _ A2 (G1 _ _ Ek)).
        intros x Hx (k' & Hk & Hk2). fold z in Hx.
        assert (K : 0 <= Z.of_nat k < n).
        { assert (nth_error (enc_rows e) k <> None) by congruence. apply nth_error_Some in H. unfold zlen in Le. lia. }
        destruct (Z.lt_trichotomy (Z.of_nat k) k') as [C|[C|C]].
        -- assert (stride * 1 <= stride * (k' - Z.of_nat k)) by (apply Z.mul_le_mono_nonneg_l; lia). nia.
        -- subst k'. lia.
        -- assert (stride * 1 <= stride * (Z.of_nat k - k')) by (apply Z.mul_le_mono_nonneg_l; lia). nia.
      * cbn [nth_error] in E. cbn [firstn]. rewrite sizes_cons. fold z.
        rewrite <- (G2 _ _ E _ _ Ek). f_equal. lia.
    + rewrite L2, L1. destruct (Z.eqb_spec n 0) as [E0|E0]; cbn [orb]; [reflexivity|].
      destruct (Z.eqb_spec (sizes es) 0) as [E1|E1]; [rewrite E1|]; lia.
    + rewrite P2, P1. destruct (Z.eqb_spec n 0) as [E0|E0]; cbn [orb]; [reflexivity|].
      destruct (Z.eqb_spec (sizes es) 0) as [E1|E1]; [rewrite E1|]; lia.
Qed.

(** ** Reading *)

Lemma get_bytes_app n m b p l1 l2 : length l1 = n ->
  get_bytes (n + m) b p = Some (l1 ++ l2) -> get_bytes n b p = Some l1 /\ get_bytes m b (p + Z.of_nat n) = Some l2.
Proof.
  intros <- H. apply get_bytes_spec in H as [H1 H2]. rewrite app_length in H1. split; apply get_bytes_spec; split; auto; try lia.
  - intros k Hk. rewrite H2 by lia. apply nth_error_app1. lia.
  - intros k Hk. replace (p + Z.of_nat (length l1) + Z.of_nat k) with (p + Z.of_nat (length l1 + k)) by lia.
    rewrite H2 by lia. rewrite nth_error_app2 by lia. f_equal. lia.
Qed.

Lemma read_components_get w row b p : 0 < w ->
  forallb (fun x => (0 <=? x) && (x <? 256 ^ w)) row = true ->
  get_bytes (Z.to_nat (w * zlen row)) b p = Some (comps w row) ->
  read_components (length row) w b p = Ok row.
Proof.
  intros Hw. revert p; induction row as [|x r IH]; intros p Hr G; cbn [length read_components]; [reflexivity|].
  cbn [forallb] in Hr. apply andb_prop in Hr as [Hx Hr].
  unfold comps in G; cbn [flat_map] in G. fold (comps w r) in G. rewrite zlen_cons in G.
  replace (Z.to_nat (w * (1 + zlen r))) with (Z.to_nat w + Z.to_nat (w * zlen r))%nat in G by (unfold zlen; lia).
  apply get_bytes_app in G as [G1 G2]; [|apply le_bytes_length].
  unfold read_int. rewrite G1. cbn [bind]. rewrite le_val_le_bytes by (rewrite Z2Nat.id by lia; lia).
  rewrite Z2Nat.id in G2 by lia. rewrite (IH _ Hr G2). reflexivity.
Qed.

Lemma read_rows_get t rows b p stride i :
  forallb (row_ok t) rows = true ->
  (forall k row, nth_error rows k = Some row ->
     get_bytes (Z.to_nat (size_in_bytes t)) b (p + (i + Z.of_nat k) * stride) = Some (comps (component_size t) row)) ->
  read_rows (length rows) (dim_count (type_dim t)) (component_size t) b i p stride = Ok rows.
Proof.
  revert i; induction rows as [|r rows IH]; intros i Hr G; cbn [length read_rows]; [reflexivity|].
  cbn [forallb] in Hr. apply andb_prop in Hr as [Hx Hr].
  assert (G0 := G 0%nat r eq_refl). rewrite Nat2Z.inj_0, Z.add_0_r in G0.
  assert (Lr : zlen r = Z.of_nat (dim_count (type_dim t))) by (unfold row_ok in Hx; lia).
  rewrite size_comps, <- Lr in G0.
  replace (dim_count (type_dim t)) with (length r) at 1 by (unfold zlen in Lr; lia).
  unfold row_ok in Hx. apply andb_prop in Hx as [_ Hx].
  rewrite (read_components_get _ _ _ _ (component_size_pos t) Hx G0). cbn [bind].
  rewrite (IH (i + 1) Hr); [reflexivity|].
  intros k row E. rewrite <- (G (S k) row E). f_equal. rewrite Nat2Z.inj_succ. ring.
Qed.

Lemma vector_read_get e n b p stride :
  encoded_ok n e = true -> 0 < stride ->
  (forall k row, nth_error (enc_rows e) k = Some row ->
     get_bytes (Z.to_nat (size_in_bytes (enc_type e))) b (p + Z.of_nat k * stride) = Some (comps (component_size (enc_type e)) row)) ->
  vector_read b n p stride (enc_type e) = Ok (decoded e).
Proof.
  intros He Hs G. unfold vector_read. replace (stride =? 0) with false by lia. rewrite andb_false_r.
  pose proof (encoded_ok_len _ _ He) as L. unfold encoded_ok in He. apply andb_prop in He as [_ He].
  replace (Z.to_nat n) with (length (enc_rows e)) by (unfold zlen in L; lia).
  rewrite read_rows_get; [reflexivity|exact He|]. intros k row E. rewrite Z.add_0_l. auto.
Qed.

(** Reading does not depend on what follows. *)
Lemma read_components_agree n w b b' p r : agree everywhere b b' ->
  read_components n w b p = Ok r -> read_components n w b' p = Ok r.
Proof.
  intros A. revert p r; induction n as [|n IH]; cbn [read_components]; intros p r H; [exact H|].
  unfold read_int in *. destruct (get_bytes (Z.to_nat w) b p) as [bs|] eqn:E; [|discriminate].
  rewrite (get_bytes_agree everywhere _ _ _ _ _ (fun _ _ => I) A E). cbn [bind] in *.
  apply bind_ok in H as (xs & H1 & H2). rewrite (IH _ _ H1). exact H2.
Qed.
