(** Facts about the programs that test the library. *)
From Coq Require Import Lia ZifyBool ZifyNat ZifyN.
From Verif Require Import Bytes BytesFacts Ssbh Described SsbhFacts Roundtrip RoundtripMain WriteFacts SsbhSpec DecFacts Formats File FileFacts
  FileSpec MeshEx MeshExFacts SsbhLemmas ReloadFacts SelfTest.
Ltac Zify.zify_post_hook ::= ZifyBool.elim_bool_cstr; Z.to_euclidean_division_equations.

Lemma list_eqb_refl l : list_eqb l l = true.
Proof. now apply list_eqb_eq. Qed.

Section Check.
  Variables (A : Type) (rd : list Z -> res A) (wr : A -> res (list Z)).

  Lemma check_error b : rd b <> Panic -> (check_read_write rd wr b = Ok ErrorReading <-> ~ exists x, rd b = Ok x).
  Proof.
    intros N. unfold check_read_write. destruct (rd b) as [x|e|]; [|split; auto; intros _ [? H]; discriminate|congruence].
    split; [|intros H; destruct H; eauto]. destruct (wr x) as [o| |]; try discriminate. destruct (list_eqb b o); discriminate.
  Qed.
  Lemma check_silent b : check_read_write rd wr b = Ok Silent <-> exists x, rd b = Ok x /\ wr x = Ok b.
  Proof.
    unfold check_read_write. split.
    - destruct (rd b) as [x|e|]; try discriminate. destruct (wr x) as [o| |] eqn:E; try discriminate.
      destruct (list_eqb b o) eqn:Q; [|discriminate]. apply list_eqb_eq in Q. subst o. eauto.
    - intros (x & -> & ->). now rewrite list_eqb_refl.
  Qed.
  Lemma check_differs b : check_read_write rd wr b = Ok NotOneToOne <-> exists x out, rd b = Ok x /\ wr x = Ok out /\ out <> b.
  Proof.
    unfold check_read_write. split.
    - destruct (rd b) as [x|e|]; try discriminate. destruct (wr x) as [o| |] eqn:E; try discriminate.
      destruct (list_eqb b o) eqn:Q; [discriminate|]. intros _. exists x, o. repeat split; auto. intros ->. now rewrite list_eqb_refl in Q.
    - intros (x & o & -> & -> & D). destruct (list_eqb b o) eqn:Q; auto. apply list_eqb_eq in Q. congruence.
  Qed.
  Lemma check_panic b : rd b <> Panic -> (check_read_write rd wr b = Panic <-> exists x, rd b = Ok x /\ forall out, wr x <> Ok out).
  Proof.
    intros N. unfold check_read_write. destruct (rd b) as [x|e|]; [| |congruence].
    - destruct (wr x) as [o| |] eqn:E; split; try discriminate; auto; try (intros _; exists x; split; auto; rewrite E; discriminate).
      intros (y & [= <-] & F). destruct (F o). exact E.
    - split; [discriminate|]. intros (? & H & _). discriminate.
  Qed.
End Check.

(** ** ssbh_test *)
Theorem check_ssbh b : bytes_ok b = true -> zlen b < 2 ^ 63 ->
  (check_read_write_ssbh b = Ok Silent <-> exists f, file_ok f /\ file_write f = Ok b) /\
  (check_read_write_ssbh b = Ok NotOneToOne <-> (exists f, DecFile b f) /\ ~ exists f, file_ok f /\ file_write f = Ok b) /\
  (check_read_write_ssbh b = Ok ErrorReading <-> ~ exists f, DecFile b f) /\
  check_read_write_ssbh b <> Panic.
Proof.
  intros Hb L. unfold check_read_write_ssbh.
  assert (S : check_read_write file_read file_write b = Ok Silent <-> exists f, file_ok f /\ file_write f = Ok b).
  { rewrite check_silent. split; intros (f & R & W); exists f; split; auto.
    - eapply file_read_ok; eauto.
    - eapply file_roundtrip; eauto. }
  split; [exact S|]. split; [|split].
  - rewrite check_differs. split.
    + intros (f & o & R & W & D). split; [exists f; now apply file_read_dec|]. intros (g & G & Wg).
      pose proof (file_roundtrip g b G Wg L) as Rg. rewrite R in Rg. injection Rg as ->. congruence.
    + intros ((f & D) & N). apply file_read_dec in D; [|exact Hb]. pose proof (file_read_ok _ _ Hb D) as F.
      destruct (file_write_total f F) as (o & W). exists f, o. repeat split; auto. intros ->. apply N. eauto.
  - rewrite check_error by apply file_read_no_panic. split; intros N (f & H); apply N; exists f; now apply file_read_dec.
  - rewrite check_panic by apply file_read_no_panic. intros (f & R & W).
    destruct (file_write_total f (file_read_ok _ _ Hb R)) as (o & E). now apply (W o).
Qed.

Lemma adj_read_no_panic b : adj_read b <> Panic.
Proof.
  unfold adj_read. apply bind_np; [apply read_int_np|]. intros [n p]. apply bind_np; [apply read_elements_np; intros; apply read_no_panic|].
  intros [vs q]. apply bind_np; [|discriminate].
  induction vs as [|v r IH]; cbn [un_entries]; [discriminate|]. apply bind_np; [|intros; apply bind_np; [exact IH|discriminate]].
  unfold un_entry. destruct v as [| |[|[] [|[] [|]]]| | |]; discriminate.
Qed.

Theorem check_adj b : bytes_ok b = true ->
  (check_read_write_adj b = Ok Silent <-> exists x, adj_ok x = true /\ zlen (ad_entries x) < 2 ^ 32 /\ b = adj_bytes x) /\
  (check_read_write_adj b = Ok NotOneToOne <->
     exists x last, adj_ok x = true /\ zlen (ad_entries x) < 2 ^ 32 /\ b = adj_bytes x ++ [last]) /\
  check_read_write_adj b <> Panic.
Proof.
  intros Hb. unfold check_read_write_adj. rewrite check_silent, check_differs, check_panic by apply adj_read_no_panic. split; [|split].
  - split.
    + intros (x & R & W). apply adj_read_iff in R as (X & L & _); [|exact Hb]. rewrite adj_write_bytes in W by exact L. injection W as W. eauto.
    + intros (x & X & L & ->). exists x. split; [|now apply adj_write_bytes]. apply adj_read_iff; auto. split; [auto|]. split; [auto|].
      exists []. rewrite app_nil_r. split; [reflexivity|cbn; lia].
  - split.
    + intros (x & o & R & W & D). apply adj_read_iff in R as (X & L & r & -> & Lr); [|exact Hb]. rewrite adj_write_bytes in W by exact L. injection W as <-.
      destruct r as [|l [|? r]]; [now rewrite app_nil_r in D|eauto|]. rewrite !zlen_cons in Lr. pose proof (zlen_nonneg r). lia.
    + intros (x & l & X & L & ->). exists x, (adj_bytes x). split; [|split; [now apply adj_write_bytes|]].
      * apply adj_read_iff; auto. split; [auto|]. split; [auto|]. exists [l]. split; [reflexivity|cbn; lia].
      * intros E. apply (f_equal (@length Z)) in E. rewrite app_length in E. cbn in E. lia.
  - intros (x & R & W). apply adj_read_iff in R as (X & L & _); [|exact Hb]. apply (W (adj_bytes x)). now apply adj_write_bytes.
Qed.

Lemma meshex_read_no_panic b : meshex_read b <> Panic.
Proof.
  unfold meshex_read.
  repeat (apply bind_np; [first [apply read_int_np|apply read_no_panic]|intros [? ?]]).
  apply bind_np; [unfold un_ptr; destruct v; discriminate|intros ?].
  apply bind_np; [unfold un_vec; destruct v0 as [| | | |[[]|]|]; discriminate|intros ?].
  apply bind_np; [unfold un_vec; destruct v1 as [| | | |[[]|]|]; discriminate|intros ?].
  apply bind_np; [unfold un_flags; destruct v2 as [| | | |[[| |[|[] [|]]| | |]|]|]; discriminate|intros ?].
  apply bind_np; [unfold un_int; destruct v3; discriminate|discriminate].
Qed.

(** The counts a file gives to entries and flags are the same, so that they can only differ if
    one of the two pointers is null. *)
Lemma meshex_counts b x : bytes_ok b = true -> DecMeshEx b x ->
  meshex_ok x = true /\ opt_len (mx_groups x) < 2 ^ 32 /\ opt_len (mx_entries x) < 2 ^ 32 /\ opt_len (mx_flags x) < 2 ^ 32 /\
  (mx_entries x <> None -> mx_flags x <> None -> opt_len (mx_entries x) = opt_len (mx_flags x)).
Proof.
  intros Hb D. pose proof D as R. apply meshex_read_dec in R; [|exact Hb]. apply meshex_read_ok in R as (X & Lg & Le); [|exact Hb].
  split; [exact X|]. split; [exact Lg|]. split; [exact Le|].
  destruct D as (len & ne & ng & _ & Ne & _ & _ & _ & De & Df & _). apply DecFacts.uint_nonneg in Ne; [|exact Hb].
  apply (Dec_wt _ false) in De; [|cbn; clear - Ne; lia|exact Hb]. apply (Dec_wt _ false) in Df; [|cbn; clear - Ne; lia|exact Hb].
  destruct (mx_flags x) as [f|].
  - assert (Lf : zlen f = ne). { cbn [flags_ptr option_map wt EntryFlags aligned map] in Df. clear - Df. cbn in Df. lia. }
    cbn [opt_len]. split; [change (2 ^ 32) with (256 ^ 4); clear - Ne Lf; lia|]. intros En _. destruct (mx_entries x) as [e|]; [|congruence].
    assert (zlen e = ne) by (cbn in De; clear - De; lia). cbn [opt_len]. lia.
  - cbn [opt_len]. split; [reflexivity|congruence].
Qed.

Theorem check_meshex b : bytes_ok b = true ->
  (check_read_write_meshex b = Panic <->
     exists x, DecMeshEx b x /\
       ((mx_entries x = None /\ opt_len (mx_flags x) <> 0) \/ (mx_flags x = None /\ opt_len (mx_entries x) <> 0) \/ meshex_write x = Err EPtrRange)) /\
  (zlen b < 2 ^ 63 ->
     (check_read_write_meshex b = Ok Silent <-> exists x, meshex_ok x = true /\ opt_len (mx_groups x) < 2 ^ 32 /\
        opt_len (mx_entries x) < 2 ^ 32 /\ opt_len (mx_flags x) < 2 ^ 32 /\ meshex_write x = Ok b)) /\
  (check_read_write_meshex b = Ok ErrorReading <-> ~ exists x, DecMeshEx b x).
Proof.
  intros Hb. unfold check_read_write_meshex. rewrite check_silent, check_error, check_panic by apply meshex_read_no_panic. split; [|split].
  - split.
    + intros (x & R & W). apply meshex_read_dec in R; [|exact Hb]. exists x. split; [exact R|].
      destruct (meshex_counts b x Hb R) as (X & Lg & Le & Lf & C). destruct (meshex_errors x X Lg Le Lf) as [_ E].
      destruct (mx_entries x) as [e|] eqn:Ee.
      * destruct (mx_flags x) as [f|] eqn:Ef.
        -- right. right. destruct E as [(o & E)|E]; [apply C; discriminate|destruct (W o E)|exact E].
        -- destruct (Z.eq_dec (opt_len (Some e)) 0) as [Z0|Z0]; [|auto]. right. right.
           destruct E as [(o & E)|E]; [exact Z0|destruct (W o E)|exact E].
      * destruct (Z.eq_dec (opt_len (mx_flags x)) 0) as [Z0|Z0]; [|auto]. right. right.
        destruct E as [(o & E)|E]; [now rewrite Z0|destruct (W o E)|exact E].
    + intros (x & D & H). pose proof D as R. apply meshex_read_dec in R; [|exact Hb]. exists x. split; [exact R|]. intros o W.
      destruct (meshex_counts b x Hb D) as (X & Lg & Le & Lf & _). destruct (meshex_errors x X Lg Le Lf) as [E _].
      destruct H as [(N & H)|[(N & H)|H]]; [| |congruence]; rewrite N in E; cbn [opt_len] in E; rewrite E in W by congruence; discriminate.
  - intros L. split.
    + intros (x & R & W). apply meshex_read_dec in R; [|exact Hb]. destruct (meshex_counts b x Hb R) as (X & Lg & Le & Lf & _). exists x. auto.
    + intros (x & X & Lg & Le & Lf & W). exists x. split; [|exact W]. now apply (meshex_roundtrip x b).
  - split; intros N (f & H); apply N; exists f; now apply meshex_read_dec.
Qed.

(** ** Versioned values *)
Definition vheader (v : Z * Z) : list Z := le_bytes 2 (fst v) ++ le_bytes 2 (snd v).

Lemma vheader_state v n : 0 <= n ->
  emit (le_bytes 2 (snd v)) (emit (le_bytes 2 (fst v)) (bump (2 + 2 + n) fresh)) = mkW (vheader v) 4 (4 + n).
Proof.
  intros Hn. rewrite Roundtrip.bump_eq. unfold fresh. cbn [wbuf wpos wdp]. change (mkW [] 0 (Z.max 0 (0 + (2 + 2 + n)))) with (mkW [] (zlen (@nil Z)) (Z.max 0 (0 + (2 + 2 + n)))).
  rewrite !emit_end, !zlen_app, !zlen_le_bytes. change (zlen (@nil Z)) with 0. unfold vheader. cbn [app]. f_equal; lia.
Qed.

Lemma versioned_spec k v t body : format k v = Some t -> wt t body = true ->
  exists out rest, versioned_write k (v, body) = Ok out /\ out = vheader v ++ rest /\
    (zlen out < 2 ^ 63 -> exists q, read t out 4 = Ok (body, q)).
Proof.
  intros F W. destruct (format_ok _ _ _ F) as [Hr _]. unfold versioned_write. cbn [fst snd]. rewrite F.
  destruct t; try discriminate Hr. apply root_inv in Hr as (Hr & HN & HA & HI & Haa).
  assert (W0 : wt (TStruct fs spad 0 al) body = true) by exact W.
  assert (N0 : noabs (TStruct fs spad 0 al) = true) by auto.
  pose proof (csize_nonneg _ _ Hr) as Hc.
  assert (size (TStruct fs spad aa al) body = csize (TStruct fs spad 0 al)) as ->.
  { change (size (TStruct fs spad 0 al) body = csize (TStruct fs spad 0 al)). apply (size_csize MTail); auto; discriminate. }
  cbv zeta. rewrite vheader_state by exact Hc. rewrite write_root. set (c := csize (TStruct fs spad 0 al)) in *.
  destruct (write_total MTail _ _ (mkW (vheader v) 4 (4 + c)) Hr N0 W0) as (s1 & E1).
  rewrite E1. cbn [bind]. destruct (align_after_spec aa s1) as (n & B & M); [lia|].
  assert (HH : zlen (vheader v) = 4) by (unfold vheader; rewrite zlen_app, !zlen_le_bytes; reflexivity).
  assert (Hp : 0 <= wpos (mkW (vheader v) 4 (4 + c))) by (cbn [wpos]; lia).
  assert (Hd : 0 <= wdp (mkW (vheader v) 4 (4 + c))) by (cbn [wdp]; lia).
  destruct (wok_all _ MTail ltac:(discriminate) Hr _ _ _ W0 Hp Hd E1) as [P1 P2 P3 P4].
  pose proof (dp_all _ MTail _ _ _ ltac:(discriminate) Hr HA W0 Hp Hd E1) as (D1 & D2 & D3).
  fold c in P1, P3, P4, D1, D2, D3.
  cbn [wbuf wpos wdp] in *. unfold wreg, reg in *. cbn [wbuf wpos wdp] in *.
  assert (X : extends (wbuf s1) (wbuf (align_after aa s1))) by (rewrite B; apply extends_app).
  assert (R : exists rest, wbuf (align_after aa s1) = vheader v ++ rest).
  { apply agree_firstn. rewrite HH. intros i x Hi Hx. apply X. apply P3; auto. lia. }
  destruct R as (rest & R). exists (wbuf (align_after aa s1)), rest. split; [reflexivity|]. split; [exact R|].
  intros HL. rewrite read_root. destruct (P4 (wbuf (align_after aa s1))) as (q & Hq & _); [| |eauto].
  - assert (zlen (wbuf s1) <= zlen (wbuf (align_after aa s1))).
    { rewrite B, zlen_app. pose proof (zlen_nonneg (zeros n)). lia. }
    specialize (D3 (4 + c) ltac:(lia)).
    assert (le16 (wdp s1) (Z.max (zlen (wbuf s1)) (4 + c))) as D4 by (apply D3, le16_le; lia).
    unfold le16 in D4. assert (4 + c <= zlen (wbuf s1)) by lia. rewrite Z.max_l in D4 by lia.
    pose proof (round_up_lt (zlen (wbuf s1)) 16 ltac:(lia)).
    change (2 ^ 63) with 9223372036854775808 in HL. change two64 with 18446744073709551616. lia.
  - intros i x _ Hx. apply X; auto.
Qed.

Theorem versioned_roundtrip k v t body : format k v = Some t -> wt t body = true ->
  exists out, versioned_write k (v, body) = Ok out /\ (zlen out < 2 ^ 63 -> versioned_read k out = Ok (v, body)).
Proof.
  intros F W. destruct (versioned_spec k v t body F W) as (out & rest & E & -> & R). exists (vheader v ++ rest). split; [exact E|].
  intros L. destruct (R L) as (q & Q). destruct (format_ok _ _ _ F) as [_ HV]. unfold ver_ok in HV.
  assert (B : vheader v ++ rest = [] ++ le_bytes 2 (fst v) ++ (le_bytes 2 (snd v) ++ rest)) by (unfold vheader; now rewrite <- app_assoc).
  assert (B2 : vheader v ++ rest = le_bytes 2 (fst v) ++ le_bytes 2 (snd v) ++ rest) by (unfold vheader; now rewrite <- app_assoc).
  assert (G1 : get_bytes 2 (vheader v ++ rest) 0 = Some (le_bytes 2 (fst v))).
  { rewrite B. apply (get_app [] (le_bytes 2 (fst v))). now rewrite le_bytes_length. }
  assert (G2 : get_bytes 2 (vheader v ++ rest) 2 = Some (le_bytes 2 (snd v))).
  { rewrite B2. apply (get_app (le_bytes 2 (fst v)) (le_bytes 2 (snd v)) rest 2). now rewrite le_bytes_length. }
  unfold versioned_read, read_int. change (Z.to_nat 2) with 2%nat. rewrite G1. cbn [bind]. change (0 + 2) with 2. rewrite G2. cbn [bind].
  rewrite !le_val_le_bytes by (change (256 ^ Z.of_nat 2) with 65536; lia). rewrite <- surjective_pairing, F.
  change (2 + 2) with 4. rewrite Q. reflexivity.
Qed.

(** ** The fuzz targets *)
Lemma fuzz_ok {A} (rd : list Z -> res A) (wr : A -> res (list Z)) x out :
  wr x = Ok out -> rd out = Ok x -> test_write_read_write rd wr x = Ok tt.
Proof. intros W R. unfold test_write_read_write, unwrap. rewrite W. cbn [bind]. rewrite R. cbn [bind]. rewrite W. cbn [bind]. now rewrite list_eqb_refl. Qed.

Theorem fuzz_versioned_ok k v t body out : format k v = Some t -> wt t body = true ->
  versioned_write k (v, body) = Ok out -> zlen out < 2 ^ 63 -> fuzz_versioned k (v, body) = Ok tt.
Proof.
  intros F W E L. destruct (versioned_roundtrip k v t body F W) as (o & E' & R). rewrite E in E'. injection E' as <-.
  eapply fuzz_ok; eauto.
Qed.

Theorem fuzz_adj_ok x : adj_ok x = true -> zlen (ad_entries x) < 2 ^ 32 -> fuzz_adj x = Ok tt.
Proof. intros X L. destruct (adj_roundtrip x X L) as (o & W & R). eapply fuzz_ok; eauto. Qed.

Theorem fuzz_meshex_ok x : meshex_ok x = true -> opt_len (mx_groups x) < 2 ^ 32 -> opt_len (mx_entries x) < 2 ^ 32 ->
  opt_len (mx_flags x) < 2 ^ 32 -> (forall out, meshex_write x = Ok out -> zlen out < 2 ^ 63) -> meshex_write x <> Err EPtrRange ->
  (fuzz_meshex x = Ok tt <-> opt_len (mx_entries x) = opt_len (mx_flags x)).
Proof.
  intros X Lg Le Lf L N. destruct (meshex_errors x X Lg Le Lf) as [E1 E2]. split.
  - intros H. destruct (Z.eq_dec (opt_len (mx_entries x)) (opt_len (mx_flags x))) as [|D]; [assumption|].
    unfold fuzz_meshex, test_write_read_write in H. rewrite (E1 D) in H. discriminate.
  - intros E. destruct (E2 E) as [(o & W)|W]; [|contradiction]. destruct (meshex_roundtrip x o X Lg Le Lf W (L o W)) as (R & _).
    eapply fuzz_ok; eauto.
Qed.

Theorem fuzz_readers b : fuzz_array b <> Panic /\ fuzz_byte_buffer b <> Panic.
Proof. split; apply read_no_panic. Qed.
