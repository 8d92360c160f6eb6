(** The names that loading makes for the attributes of meshes of version 1.8. *)
From Coq Require Import Lia ZifyBool ZifyNat ZifyN String.
From Verif Require Import Bytes BytesFacts Ssbh MeshData Json.
From Coq Require Import List.
Import ListNotations.
Open Scope Z_scope.
Ltac Zify.zify_post_hook ::= ZifyBool.elim_bool_cstr; Z.to_euclidean_division_equations.

(** [ds] is the number [n] in decimal, without leading zeros. *)
Definition written_decimal (ds : list Z) (n : Z) : Prop :=
  Forall (fun c => 48 <= c <= 57) ds /\ fold_left (fun a c => 10 * a + (c - 48)) ds 0 = n /\
  (ds = [48] \/ exists c r, ds = c :: r /\ c <> 48).
Definition name_prefixes : list (usage * string) :=
  [(Position, "Position"); (Normal, "Normal"); (Tangent, "Tangent"); (TextureCoordinate, "TextureCoordinate"); (ColorSet, "colorSet")]%string.

Fixpoint pow10 (k : nat) : Z := match k with O => 1 | S k => 10 * pow10 k end.
Lemma digits_spec fuel : forall n acc, 0 <= n < pow10 fuel -> (0 < fuel)%nat -> exists ds, digits fuel n acc = ds ++ acc /\ written_decimal ds n.
Proof.
  induction fuel as [|fuel IH]; intros n acc H F; [lia|]. cbn [digits]. destruct (n <? 10) eqn:E.
  - exists [48 + n]. split; [reflexivity|]. split; [constructor; [lia|constructor]|]. split; [cbn [fold_left]; lia|].
    destruct (n =? 0) eqn:Z0; [left; f_equal; lia|right]. exists (48 + n), []. split; [reflexivity|lia].
  - cbn [pow10] in H. destruct fuel as [|fuel]; [cbn [pow10] in H; lia|].
    destruct (IH (n / 10) ((48 + n mod 10) :: acc)) as (ds & -> & D1 & D2 & D3); [lia|lia|].
    exists (ds ++ [48 + n mod 10]). split; [now rewrite <- app_assoc|]. split; [|split].
    + apply Forall_app. split; [exact D1|]. constructor; [lia|constructor].
    + rewrite fold_left_app. cbn [fold_left]. rewrite D2. lia.
    + right. destruct D3 as [->|(c & r & -> & N)]; [cbn [fold_left] in D2; lia|]. exists c, (r ++ [48 + n mod 10]). auto.
Qed.
Theorem made_names u n p : In (u, p) name_prefixes -> 0 <= n < 2 ^ 32 ->
  exists ds, usage_text u ++ decimal n = text_of p ++ ds /\ written_decimal ds n.
Proof.
  intros I H. destruct (digits_spec 10 n []) as (ds & E & D); [cbn [pow10]; lia|lia|]. rewrite app_nil_r in E.
  exists ds. split; [|exact D]. unfold decimal. rewrite E. f_equal.
  cbn [name_prefixes In] in I. destruct I as [[= <- <-]|[[= <- <-]|[[= <- <-]|[[= <- <-]|[[= <- <-]|[]]]]]]; reflexivity.
Qed.
Lemma prefix_digits a b ds ds' : Forall (fun c => ~ 48 <= c <= 57) a -> Forall (fun c => ~ 48 <= c <= 57) b ->
  Forall (fun c => 48 <= c <= 57) ds -> Forall (fun c => 48 <= c <= 57) ds' -> a ++ ds = b ++ ds' -> a = b /\ ds = ds'.
Proof.
  revert b. induction a as [|x a IH]; intros [|y b] A B D D' E; cbn [app] in E.
  - auto.
  - subst ds. inversion D; inversion B; subst. contradiction.
  - subst ds'. inversion D'; inversion A; subst. contradiction.
  - injection E as -> E. inversion A; inversion B; subst. destruct (IH b) as [-> ->]; auto.
Qed.
(** Different attributes get different names. *)
Theorem names_distinct u n u' n' : u <> Binormal -> u' <> Binormal -> 0 <= n < 2 ^ 32 -> 0 <= n' < 2 ^ 32 ->
  usage_text u ++ decimal n = usage_text u' ++ decimal n' -> u = u' /\ n = n'.
Proof.
  intros N N' H H' E.
  destruct (digits_spec 10 n []) as (ds & Ed & D1 & D2 & _); [cbn [pow10]; lia|lia|]. rewrite app_nil_r in Ed.
  destruct (digits_spec 10 n' []) as (ds' & Ed' & D1' & D2' & _); [cbn [pow10]; lia|lia|]. rewrite app_nil_r in Ed'.
  unfold decimal in E. rewrite Ed, Ed' in E.
  assert (P : forall u, Forall (fun c => ~ 48 <= c <= 57) (usage_text u)).
  { intros v. destruct v; cbn [usage_text]; repeat (apply Forall_cons; [lia|]); apply Forall_nil. }
  destruct (prefix_digits _ _ _ _ (P u) (P u') D1 D1' E) as [Q Q2]. split; [|congruence].
  destruct u, u'; try reflexivity; try contradiction; discriminate Q.
Qed.
