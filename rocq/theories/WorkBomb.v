(** Files whose values are much larger than the file. *)
From Coq Require Import Lia ZifyBool ZifyNat ZifyN.
From Verif Require Import MeshEx Bytes BytesFacts Ssbh Described SsbhFacts SsbhSpec DecFacts Formats File FileFacts PlainFacts Work WorkSpec WorkFacts.
Ltac Zify.zify_post_hook ::= ZifyBool.elim_bool_cstr; Z.to_euclidean_division_equations.

(** [k] pointers to the byte behind them *)
Fixpoint pointers (k : nat) : list Z :=
  match k with
  | O => []
  | S k' => le_bytes 8 (8 * Z.of_nat k) ++ pointers k'
  end.
Definition letters (m : nat) : list Z := repeat 97 m ++ [0].
(** A list of [m] file names, all of them the same text of [m] letters *)
Definition bomb (m : nat) : list Z :=
  header (read_magic Nlst) (1, 0) ++ le_bytes 8 16 ++ le_bytes 8 (Z.of_nat m) ++ pointers m ++ letters m.

Lemma pointers_len k : zlen (pointers k) = 8 * Z.of_nat k.
Proof. induction k as [|k IH]; cbn [pointers]; [reflexivity|]. rewrite zlen_app, IH, zlen_le_bytes. lia. Qed.
Lemma letters_len m : zlen (letters m) = Z.of_nat m + 1.
Proof. unfold letters. rewrite zlen_app. unfold zlen. rewrite repeat_length. cbn [length]. lia. Qed.
Lemma bomb_len m : zlen (bomb m) = 9 * Z.of_nat m + 41.
Proof.
  unfold bomb. rewrite !zlen_app, header_len, !zlen_le_bytes, pointers_len, letters_len by reflexivity. lia.
Qed.
Lemma bytes_ok_app a c : bytes_ok (a ++ c) = bytes_ok a && bytes_ok c.
Proof. apply forallb_app. Qed.
Lemma bomb_ok m : bytes_ok (bomb m) = true.
Proof.
  unfold bomb. rewrite !bytes_ok_app, !le_bytes_ok.
  replace (bytes_ok (header (read_magic Nlst) (1, 0))) with true by reflexivity.
  replace (bytes_ok (pointers m)) with true.
  2:{ induction m as [|m IH]; cbn [pointers]; auto. now rewrite bytes_ok_app, le_bytes_ok, <- IH. }
  unfold letters. rewrite bytes_ok_app. cbn. rewrite andb_true_r. apply forallb_forall.
  intros x Hx. apply repeat_spec in Hx. now subst.
Qed.

Definition name_val (m : nat) : val := VStruct [VPtr (Some (VBytes (repeat 97 m)))].

Lemma pointers_read m b : zlen b < two64 -> forall k a,
  b = a ++ pointers k ++ letters m ->
  read_n k (read SsbhString b) (zlen a) = Ok (repeat (name_val m) k, zlen a + 8 * Z.of_nat k).
Proof.
  intros Hb. induction k as [|k IH]; intros a E.
  - cbn [read_n repeat]. do 2 f_equal. lia.
  - cbn [read_n repeat]. pose proof (zlen_nonneg a) as Ha.
    assert (zlen b = zlen a + 8 * Z.of_nat (S k) + Z.of_nat m + 1) as L
      by (rewrite E, !zlen_app, pointers_len, letters_len; lia).
    change two64 with 18446744073709551616 in Hb.
    assert (read SsbhString b (zlen a) = Ok (name_val m, zlen a + 8)) as ->.
    { unfold SsbhString, SsbhStringN, record. rewrite read_struct. cbn [map read_fields read].
      assert (read_int 8 b (zlen a) = Ok (8 * Z.of_nat (S k), zlen a + 8)) as ->.
      { rewrite E. cbn [pointers]. rewrite <- app_assoc. change 8%nat with (Z.to_nat 8).
        apply read_int_mid; [lia|]. change (256 ^ 8) with 18446744073709551616. lia. }
      cbn [bind]. replace (8 * Z.of_nat (S k) =? 0) with false by lia.
      unfold absolute_offset_checked. change two64 with 18446744073709551616.
      replace (zlen a + 8 * Z.of_nat (S k) <? 18446744073709551616) with true by lia. cbn [bind].
      destruct (at_read_cstr b (repeat 97 m) (Z.to_nat (zlen b - (zlen a + 8 * Z.of_nat (S k))))
                  (zlen a + 8 * Z.of_nat (S k))) as (q & ->).
      - replace (zlen a + 8 * Z.of_nat (S k)) with (zlen (a ++ pointers (S k))) by (rewrite zlen_app, pointers_len; lia).
        assert (b = (a ++ pointers (S k)) ++ letters m ++ []) as -> by now rewrite app_nil_r, <- app_assoc.
        intros i x Hx.
        rewrite byte_at_nth by (pose proof (zlen_nonneg (a ++ pointers (S k))); lia).
        rewrite nth_error_app2 by (unfold zlen; lia).
        replace (Z.to_nat (zlen (a ++ pointers (S k)) + Z.of_nat i) - length (a ++ pointers (S k)))%nat with i
          by (unfold zlen; lia).
        rewrite app_nil_r. exact Hx.
      - intros H. apply repeat_spec in H. discriminate.
      - rewrite repeat_length. lia.
      - cbn [bind]. unfold name_val. do 2 f_equal. lia. }
    cbn [bind].
    specialize (IH (a ++ le_bytes 8 (8 * Z.of_nat (S k)))).
    rewrite zlen_app, zlen_le_bytes in IH. change (zlen a + Z.of_nat 8) with (zlen a + 8) in IH.
    rewrite IH; [|rewrite E; cbn [pointers]; now rewrite <- !app_assoc].
    cbn [bind]. do 2 f_equal. lia.
Qed.

Lemma bomb_read m : 9 * Z.of_nat m + 41 < two64 ->
  file_read (bomb m) = Ok (mkFile Nlst (1, 0) (VStruct [VArr (repeat (name_val m) m)])).
Proof.
  intros Hm. apply (read_document Nlst (1, 0) Nlst_V10 _ _ 40); [reflexivity|]. cbn zeta.
  change (header (read_magic Nlst) (1, 0) ++ le_bytes 8 16 ++ le_bytes 8 (Z.of_nat m) ++ pointers m ++ letters m)
    with (bomb m).
  change two64 with 18446744073709551616 in Hm.
  unfold Nlst_V10, record. rewrite read_struct. cbn [map read_fields read].
  assert (read_int 8 (bomb m) 24 = Ok (16, 32)) as ->.
  { unfold bomb. change (le_bytes 8 16) with (le_bytes (Z.to_nat 8) 16).
    change 24 with (zlen (header (read_magic Nlst) (1, 0))). now rewrite read_int_mid by lia. }
  cbn [bind].
  assert (read_int 8 (bomb m) 32 = Ok (Z.of_nat m, 40)) as ->.
  { unfold bomb. rewrite app_assoc.
    change 32 with (zlen (header (read_magic Nlst) (1, 0) ++ le_bytes 8 16)).
    change (le_bytes 8 (Z.of_nat m)) with (le_bytes (Z.to_nat 8) (Z.of_nat m)).
    rewrite read_int_mid; [reflexivity|lia|]. change (256 ^ 8) with 18446744073709551616. lia. }
  cbn [bind]. change (absolute_offset_checked 24 16) with (Ok 40). cbn [bind].
  rewrite read_elements_n, Nat2Z.id.
  set (a := header (read_magic Nlst) (1, 0) ++ le_bytes 8 16 ++ le_bytes 8 (Z.of_nat m)).
  assert (zlen a = 40) as La by (unfold a; now rewrite !zlen_app, header_len, !zlen_le_bytes by reflexivity).
  rewrite <- La.
  rewrite (pointers_read m (bomb m)); [reflexivity| |].
  - rewrite bomb_len. change two64 with 18446744073709551616. lia.
  - unfold bomb, a. now rewrite <- !app_assoc.
Qed.

Lemma name_content m k : content (VStruct [VArr (repeat (name_val m) k)]) = Z.of_nat k * (Z.of_nat m + 1).
Proof.
  cbn [content fold_right]. rewrite Z.add_0_r. induction k as [|k IH]; [reflexivity|].
  cbn [repeat fold_right]. rewrite IH. cbn [content name_val fold_right]. unfold zlen. rewrite repeat_length. lia.
Qed.

Theorem bombs K : 0 <= K < 2 ^ 32 -> exists b f,
  bytes_ok b = true /\ zlen b <= 100 * (K + 1) /\ file_read b = Ok f /\ K * zlen b < content (fbody f).
Proof.
  intros HK. change (2 ^ 32) with 4294967296 in HK.
  exists (bomb (Z.to_nat (10 * K + 5))). eexists. split; [apply bomb_ok|]. rewrite bomb_len.
  split; [lia|]. split; [apply bomb_read; change two64 with 18446744073709551616; lia|].
  cbn [fbody]. rewrite name_content. nia.
Qed.

(** Elements without bytes would be read as often as the file says. *)
Lemma unit_loop b n : forall p, is_ok (fst (cread_n n (cread TUnit b) p)) = true /\
  Z.of_nat n <= c_steps (snd (cread_n n (cread TUnit b) p)).
Proof.
  induction n as [|n IH]; intros p; cbn [cread_n]; [cbn; lia|].
  destruct (IH p) as [I1 I2]. change (cread TUnit b p) with (steps 1 (Ok (VStruct [], p))).
  destruct (cread_n n (cread TUnit b) p) as [[[vs q]| |] [s1 s2 s3]] eqn:E;
    cbn [fst snd is_ok c_steps] in *; [|discriminate|discriminate].
  unfold steps, cbind, cret, cadd. cbn [fst snd]. rewrite E. cbn [fst snd is_ok c_steps]. split; auto. lia.
Qed.

Theorem empty_elements c : 0 <= c < 2 ^ 64 ->
  exists b, bytes_ok b = true /\ zlen b = 16 /\ c <= c_steps (snd (cread (TArr TUnit) b 0)).
Proof.
  intros Hc. exists (le_bytes 8 0 ++ le_bytes 8 c). split; [now rewrite bytes_ok_app, !le_bytes_ok|].
  split; [now rewrite zlen_app, !zlen_le_bytes|]. cbn [cread].
  pose proof (read_int_mid 8 [] 0 (le_bytes 8 c) ltac:(lia) ltac:(lia)) as R1. cbn [app] in R1.
  change (zlen (@nil Z)) with 0 in R1. change (Z.to_nat 8) with 8%nat in R1. rewrite R1.
  pose proof (read_int_mid 8 (le_bytes 8 0) c [] ltac:(lia)) as R2.
  change (256 ^ 8) with (2 ^ 64) in R2. specialize (R2 Hc). rewrite app_nil_r in R2.
  change (zlen (le_bytes 8 0)) with 8 in R2. change (Z.to_nat 8) with 8%nat in R2.
  unfold steps at 1, cbind at 1. cbn [fst snd]. change (0 + 8) with 8. rewrite R2.
  unfold steps at 1, cbind at 1. cbn [fst snd]. change (absolute_offset_checked 0 0) with (Ok 0).
  unfold cret at 1, cbind at 1. cbn [fst snd].
  unfold reserve_slots, cbind at 1. cbn [fst snd].
  rewrite cread_elements_n.
  change (fun p : Z => steps 1 (read TUnit (le_bytes 8 0 ++ le_bytes 8 c) p)) with (cread TUnit (le_bytes 8 0 ++ le_bytes 8 c)).
  destruct (unit_loop (le_bytes 8 0 ++ le_bytes 8 c) (Z.to_nat c) 0) as [U1 U2].
  rewrite Z2Nat.id in U2 by lia.
  destruct (cread_n (Z.to_nat c) (cread TUnit (le_bytes 8 0 ++ le_bytes 8 c)) 0) as [[[vs q]| |] [s1 s2 s3]];
    cbn [fst snd is_ok c_steps] in *; [|discriminate|discriminate].
  unfold cbind, cret, cadd. cbn [fst snd c_steps]. lia.
Qed.

(** ** The statements of C77 *)
Theorem counted_readers b :
  (forall t p, fst (cread t b p) = read t b p) /\
  fst (cfile_read b) = file_read b /\ fst (cmeshex_read b) = meshex_read b /\ fst (cadj_read b) = adj_read b.
Proof.
  repeat split; [intros t p; apply cread_read|apply cfile_read_file|apply cmeshex_read_meshex|apply cadj_read_adj].
Qed.
Theorem read_work b t p : bytes_ok b = true -> sane t = true -> 0 <= p ->
  c_steps (snd (cread t b p)) <= budget (zlen b) t /\
  budget (zlen b) t <= budget 0 t * (zlen b + 1) ^ degree t.
Proof.
  intros Hb Hs Hp. split; [apply (cread_within b t Hb Hs p Hp)|apply budget_poly; auto; apply zlen_nonneg].
Qed.
Theorem read_reservations b t p : bytes_ok b = true -> sane t = true -> 0 <= p ->
  let c := snd (cread t b p) in
  c_slots c <= c_steps c + 1024 * array_depth t /\
  c_slots c + c_bytes c <= c_steps c + 1024 * array_depth t + 104857600 /\
  (forall r, fst (cread t b p) = Ok r -> c_slots c + c_bytes c <= c_steps c).
Proof.
  intros Hb Hs Hp c. destruct (cread_within b t Hb Hs p Hp) as [_ _ _ _ O S B].
  split; [exact S|]. split; [exact B|]. intros r E. apply O. now rewrite E.
Qed.
Theorem file_work b : bytes_ok b = true ->
  let c := snd (cfile_read b) in
  c_steps c <= 4 + 180 * (zlen b + 1) ^ 4 /\
  c_slots c <= c_steps c + 3072 /\
  c_slots c + c_bytes c <= c_steps c + 3072 + 104857600 /\
  (forall f, file_read b = Ok f -> c_slots c + c_bytes c <= c_steps c).
Proof.
  intros Hb c. destruct (cfile_within b Hb) as [_ _ _ St O S B].
  split; [exact St|]. split; [exact S|]. split; [exact B|]. intros f E. apply O. now rewrite cfile_read_file, E.
Qed.
Theorem meshex_work b : bytes_ok b = true ->
  let c := snd (cmeshex_read b) in
  c_steps c <= 64 * (zlen b + 1) ^ 2 /\ c_slots c <= c_steps c /\ c_slots c + c_bytes c <= c_steps c + 104857600.
Proof.
  intros Hb c. destruct (cmeshex_within b Hb) as [_ _ _ St O S B]. fold c in St, S, B. rewrite Z.mul_0_r, Z.add_0_r in *.
  unfold max_bytes in B. lia.
Qed.
Theorem adj_work b : bytes_ok b = true ->
  let c := snd (cadj_read b) in
  c_steps c <= 6 * (zlen b + 1) /\ c_slots c <= c_steps c /\ c_slots c + c_bytes c <= c_steps c + 104857600.
Proof.
  intros Hb c. destruct (cadj_within b Hb) as [_ _ _ St O S B]. fold c in St, S, B. rewrite Z.mul_0_r, Z.add_0_r in *.
  unfold max_bytes in B. lia.
Qed.
