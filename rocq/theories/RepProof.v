(** The invariants of the proofs, read through the vocabulary of SpecRep. *)
Require Import ZArith List Bool Lia Ring Field.
From Verif Require Import Word Bytes Spec ZmField Primes Curve FieldModel FieldMul FieldProof FieldProof2 FieldBytes FieldOps
  ScalarModel ScalarProof ScalarProof2 ScalarMul ScalarSplit GroupModel GroupProof GroupProof2 GroupProof3 GroupProof4 GroupProof5 Endo SpecRep.
Import ListNotations.
Local Open Scope Z_scope.

Lemma fe_int_eq a : fe_int a = fval a. Proof. unfold fe_int, fval. ring. Qed.
Lemma scalar_int_eq a : scalar_int a = sv a. Proof. unfold scalar_int, sv. ring. Qed.
Lemma mag_iff m a : magnitude m a <-> fe_mag m a. Proof. reflexivity. Qed.
Lemma norm_iff a : normalized a <-> fe_norm a.
Proof. unfold normalized, fe_norm. rewrite fe_int_eq. unfold M52, M48. lia. Qed.
Lemma words_iff a : scalar_words a <-> sc_lim a. Proof. reflexivity. Qed.
Lemma valid_iff a : scalar_valid a <-> sc_ok a.
Proof. unfold scalar_valid, sc_ok. rewrite scalar_int_eq. reflexivity. Qed.
Lemma res_zv a : fe_res a = zv (fv a).
Proof. unfold fe_res, fv. now rewrite fe_int_eq, zv_toF. Qed.
Lemma toF_res a : toF (fe_res a) = fv a.
Proof. rewrite res_zv. apply toF_zv. Qed.
Lemma res_eq a v : fv a = toF v -> fe_res a = v mod p.
Proof. intro E. rewrite res_zv, E. apply zv_toF. Qed.
Lemma res_inv a v : fe_res a = v mod p -> fv a = toF v.
Proof. intro E. rewrite <- toF_res, E. apply toF_mod. Qed.
Lemma p_pos' : 0 < p. Proof. reflexivity. Qed.
Lemma res_range a : 0 <= fe_res a < p. Proof. apply Z.mod_pos_bound, p_pos'. Qed.

Lemma aff_iff a P : affine_point a P <-> ge_rep f1 a P.
Proof.
  unfold affine_point, ge_rep. split; intros (A & B & C & D); (split; [exact A|split; [exact B|split; [exact C|]]]); destruct P as [|x y]; try exact D;
  destruct D as (D1 & D2 & D3); (split; [exact D1|]).
  - rewrite <- D2, <- D3, !toF_res. split; ring.
  - cbn in C. destruct C as (Cx & Cy & _).
    rewrite <- (Z.mod_small x p), <- (Z.mod_small y p) by assumption.
    split; apply res_eq; [rewrite D2|rewrite D3]; ring.
Qed.
Lemma toF_pow2 x z : toF (x * z ^ 2) = (toF x * (toF z * toF z))%F.
Proof. rewrite <- !toF_mul. f_equal. ring. Qed.
Lemma toF_pow3 x z : toF (x * z ^ 3) = (toF x * (toF z * toF z * toF z))%F.
Proof. rewrite <- !toF_mul. f_equal. ring. Qed.
Lemma res_nz a : fe_res a <> 0 <-> fv a <> f0.
Proof.
  unfold fv. rewrite toF_0_iff. unfold fe_res. now rewrite fe_int_eq.
Qed.
Lemma jac_iff a P : jacobian_point a P <-> gej_rep f1 a P.
Proof.
  unfold jacobian_point, gej_rep. split; intros (A & B & C & E & D); (split; [exact A|split; [exact B|split; [exact C|split; [exact E|]]]]); destruct P as [|x y]; try exact D;
  destruct D as (D1 & D2 & D3 & D4); (split; [exact D1|]).
  - split; [now apply res_nz|]. cbv zeta. apply res_inv in D3, D4. rewrite D3, D4, toF_pow2, toF_pow3, toF_res. split; ring.
  - split; [now apply res_nz|]. split; apply res_eq; rewrite ?toF_pow2, ?toF_pow3, ?toF_res; [rewrite D3|rewrite D4]; ring.
Qed.

(** ** Field operations *)
Ltac rep := rewrite ?norm_iff, ?mag_iff, ?fe_int_eq in *.
Lemma mod_k x y k : x = y + k * p -> y mod p = x mod p.
Proof. intros ->. symmetry. apply Z_mod_plus_full. Qed.
Lemma mag_le m k a : magnitude m a -> m <= k -> magnitude k a.
Proof. rewrite !mag_iff. intros H L. eapply mag_weaken; eassumption. Qed.

Lemma prop_fe_mul a b : magnitude 8 a -> magnitude 8 b ->
  magnitude 1 (fe_mul a b) /\ fe_res (fe_mul a b) = (fe_int a * fe_int b) mod p.
Proof.
  intros A B. split; [now apply fe_mul_mag|]. apply res_eq. rewrite fe_mul_fv by assumption. rewrite toF_mul, !fe_int_eq. reflexivity.
Qed.
Lemma prop_fe_sqr a : magnitude 8 a -> magnitude 1 (fe_sqr a) /\ fe_res (fe_sqr a) = (fe_int a ^ 2) mod p.
Proof.
  intros A. split; [now apply fe_sqr_mag|]. apply res_eq. rewrite fe_sqr_fv by assumption.
  replace (fe_int a ^ 2) with (fe_int a * fe_int a) by ring. rewrite toF_mul, !fe_int_eq. reflexivity.
Qed.
Lemma prop_fe_add m k a b : magnitude m a -> magnitude k b -> 0 <= m -> 0 <= k -> m + k <= 32 ->
  magnitude (m + k) (fe_add a b) /\ fe_int (fe_add a b) = fe_int a + fe_int b.
Proof. rep. apply fe_add_ok. Qed.
Lemma prop_fe_add_int m k a : magnitude m a -> 0 <= k <= 0x7FFF -> 0 <= m <= 31 ->
  magnitude (m + 1) (fe_add_int a k) /\ fe_int (fe_add_int a k) = fe_int a + k.
Proof. rep. apply fe_add_int_ok. Qed.
Lemma prop_fe_negate m a : magnitude m a -> 0 <= m <= 31 ->
  magnitude (m + 1) (fe_negate a m) /\ fe_res (fe_negate a m) = (- fe_int a) mod p.
Proof.
  rep. intros A M. destruct (fe_negate_ok m a A M) as (B & E). split; [exact B|].
  unfold fe_res. rewrite fe_int_eq, E. replace (2 * (m + 1) * p - fval a) with (- fval a + (2 * (m + 1)) * p) by ring. apply Z_mod_plus_full.
Qed.
Lemma prop_fe_mul_int m k a : magnitude m a -> 0 <= m -> 0 <= k -> m * k <= 32 ->
  magnitude (m * k) (fe_mul_int a k) /\ fe_int (fe_mul_int a k) = fe_int a * k.
Proof. rep. apply fe_mul_int_ok. Qed.
Lemma prop_fe_half m a : magnitude m a -> 0 <= m <= 31 ->
  magnitude (m / 2 + 1) (fe_half a) /\ (2 * fe_int (fe_half a)) mod p = fe_res a.
Proof.
  rep. intros A M. destruct (fe_half_ok m a A M) as (B & k & E). split; [exact B|]. unfold fe_res. rewrite E, fe_int_eq. apply Z_mod_plus_full.
Qed.
Lemma prop_fe_normalize a : magnitude 32 a ->
  normalized (fe_normalize a) /\ fe_int (fe_normalize a) = fe_res a /\ fe_normalize_var a = fe_normalize a /\
  magnitude 1 (fe_normalize_weak a) /\ fe_res (fe_normalize_weak a) = fe_res a /\
  fe_normalizes_to_zero a = (fe_res a =? 0) /\ fe_normalizes_to_zero_var a = (fe_res a =? 0).
Proof.
  intro A. destruct (fe_normalize_ok a A) as (B & C). destruct (fe_normalize_weak_ok a A) as (D & E). destruct (fe_nz_eq a A) as (H & K).
  rewrite norm_iff. rewrite !fe_int_eq. assert (R : fe_res a = fval a mod p) by (unfold fe_res; now rewrite fe_int_eq). rewrite <- R in H, K, C.
  split; [exact B|split; [exact C|split; [now apply fe_normalize_var_eq|split; [exact D|split; [|split; assumption]]]]].
  rewrite !res_zv. now f_equal.
Qed.
Lemma prop_fe_compare a b : normalized a -> normalized b ->
  fe_cmp_var a b = (if fe_int a <? fe_int b then -1 else if fe_int a =? fe_int b then 0 else 1) /\
  fe_is_zero a = (fe_int a =? 0) /\ fe_is_odd a = Z.odd (fe_int a).
Proof.
  rep. intros A B. split; [|split].
  - rewrite (fe_cmp_var_spec a b A B). destruct (Z.compare_spec (fval a) (fval b)) as [E|E|E].
    + rewrite E, Z.ltb_irrefl, Z.eqb_refl. reflexivity.
    + apply Z.ltb_lt in E. now rewrite E.
    + replace (fval a <? fval b) with false by (symmetry; apply Z.ltb_ge; lia). replace (fval a =? fval b) with false by (symmetry; apply Z.eqb_neq; lia). reflexivity.
  - apply eq_true_iff_eq. rewrite (fe_is_zero_spec a A), Z.eqb_eq. unfold fv. rewrite toF_0_iff.
    assert (R : 0 <= fval a < p) by (split; [unfold fval, fe_norm in *; lia|apply A]). now rewrite Z.mod_small.
  - now apply fe_is_odd_spec.
Qed.
Lemma prop_fe_equal m a b : magnitude 1 a -> magnitude m b -> 0 <= m <= 30 -> fe_equal a b = (fe_res a =? fe_res b).
Proof.
  intros A B M. apply eq_true_iff_eq. rewrite (fe_equal_spec m a b A B M), Z.eqb_eq, !res_zv. split; [now intros ->|apply F_ext].
Qed.
Lemma prop_fe_bytes a l : (normalized a -> fe_get_b32 a = be_bytes 32 (fe_int a)) /\
  (byte_list l -> length l = 32%nat ->
     fe_int (fe_set_b32_mod l) = be_val l /\ magnitude 1 (fe_set_b32_mod l) /\
     (be_val l < p -> normalized (fe_set_b32_mod l) /\ fe_get_b32 (fe_set_b32_mod l) = l) /\
     fe_set_b32_limit l = (be_val l <? p, fe_set_b32_mod l)).
Proof.
  split; [rep; apply fe_get_b32_ok|]. intros B L. destruct (fe_set_b32_mod_ok l B L) as (E & R). destruct (fe_set_b32_limit_ok l B L) as (E1 & E2).
  rep. split; [exact E|split; [|split]].
  - unfold fe_mag, M52, M48 in *. lia.
  - intro V. assert (N : fe_norm (fe_set_b32_mod l)) by (unfold fe_norm; rewrite E; tauto).
    split; [exact N|]. rewrite (fe_get_b32_ok _ N), E. rewrite <- L. apply be_bytes_be_val. exact B.
  - destruct (fe_set_b32_limit l) as [x y]. cbn in E1, E2. now rewrite E1, E2.
Qed.
Lemma prop_fe_storage a : normalized a -> fe_from_storage (fe_to_storage a) = a.
Proof. rep. apply fe_storage_round. Qed.
Lemma prop_fe_sqrt a : magnitude 8 a ->
  (fst (fe_sqrt a) = true <-> exists y, (y * y) mod p = fe_res a) /\
  (fst (fe_sqrt a) = true -> (fe_int (snd (fe_sqrt a)) ^ 2) mod p = fe_res a) /\ magnitude 1 (snd (fe_sqrt a)).
Proof.
  intro A. destruct (fe_sqrt_spec a A) as (B & C & D). split; [|split; [|exact D]].
  - unfold fe_res. rewrite fe_int_eq. exact B.
  - intro T. specialize (C T). unfold fe_res. rewrite !fe_int_eq. apply toF_inj.
    rewrite Z.pow_2_r, toF_mul. exact C.
Qed.
Lemma prop_fe_cmov m r a flag : magnitude m r -> magnitude m a -> 0 <= m <= 32 -> flag = 0 \/ flag = 1 ->
  fe_cmov r a flag = if flag =? 0 then r else a.
Proof. rep. apply fe_cmov_ok. Qed.

(** ** Scalar operations *)
Ltac srep := rewrite ?valid_iff, ?words_iff, ?scalar_int_eq in *.
Lemma prop_sc_add a b : scalar_valid a -> scalar_valid b ->
  scalar_valid (fst (sc_add_ov a b)) /\ scalar_int (fst (sc_add_ov a b)) = (scalar_int a + scalar_int b) mod n /\
  snd (sc_add_ov a b) = (if n <=? scalar_int a + scalar_int b then 1 else 0).
Proof. srep. intros A B. destruct (sc_add_ov_ok a b A B) as (C & D & E). rewrite E. split; [exact C|split; [exact D|]]. now destruct (n <=? sv a + sv b). Qed.
Lemma prop_sc_mul a b : scalar_words a -> scalar_words b ->
  scalar_valid (sc_mul a b) /\ scalar_int (sc_mul a b) = (scalar_int a * scalar_int b) mod n.
Proof. srep. intros A B. split; [now apply sc_mul_ok|now apply sc_mul_sv]. Qed.
Lemma prop_sc_negate a : scalar_valid a ->
  scalar_valid (sc_negate a) /\ scalar_int (sc_negate a) = (- scalar_int a) mod n /\
  sc_cond_negate a 0 = (a, 1) /\ sc_cond_negate a 1 = (sc_negate a, -1).
Proof.
  srep. intro A. destruct (sc_negate_ok a A) as (B & C). split; [exact B|split; [exact C|]].
  split; [rewrite (sc_cond_negate_ok a 0 A (or_introl eq_refl))|rewrite (sc_cond_negate_ok a 1 A (or_intror eq_refl))]; reflexivity.
Qed.
Lemma prop_sc_half a : scalar_valid a -> scalar_valid (sc_half a) /\ (2 * scalar_int (sc_half a)) mod n = scalar_int a.
Proof.
  srep. intro A. destruct (sc_half_ok a A) as (B & C). split; [exact B|]. rewrite C. apply Z.mod_small.
  destruct A as [A1 A2]. unfold sc_lim, wd in A1. unfold sv in *. lia.
Qed.
Lemma prop_sc_cadd_bit a bit flag : scalar_words a -> 0 <= bit < 256 -> flag = 0 \/ flag = 1 -> scalar_int a + flag * 2 ^ bit < 2 ^ 256 ->
  scalar_words (sc_cadd_bit a bit flag) /\ scalar_int (sc_cadd_bit a bit flag) = scalar_int a + flag * 2 ^ bit.
Proof. srep. apply sc_cadd_bit_ok. Qed.
Lemma prop_sc_tests a b : scalar_words a -> scalar_words b ->
  sc_is_zero a = (scalar_int a =? 0) /\ sc_is_one a = (scalar_int a =? 1) /\ sc_is_even a = Z.even (scalar_int a) /\
  sc_is_high a = (n / 2 <? scalar_int a) /\ sc_eq a b = (scalar_int a =? scalar_int b) /\ sc_check_overflow a = (n <=? scalar_int a).
Proof.
  srep. intros A B. split; [now apply sc_is_zero_spec|split; [now apply sc_is_one_spec|split; [apply sc_is_even_spec|split; [now apply sc_is_high_spec|split]]]];
  [now apply sc_eq_spec|now apply sc_check_overflow_spec].
Qed.
Lemma prop_sc_bits a offset count : scalar_words a -> 0 <= offset -> 1 <= count <= 32 -> offset + count <= 256 ->
  sc_get_bits_var a offset count = (scalar_int a / 2 ^ offset) mod 2 ^ count /\
  ((offset + count - 1) / 64 = offset / 64 -> sc_get_bits_limb32 a offset count = (scalar_int a / 2 ^ offset) mod 2 ^ count).
Proof. srep. intros A O C S. split; [now apply sc_get_bits_var_ok|now apply sc_get_bits_limb32_ok]. Qed.
Lemma prop_sc_mul_shift a b : scalar_words a -> scalar_words b ->
  scalar_words (sc_mul_shift_var a b 384) /\ scalar_int (sc_mul_shift_var a b 384) = (scalar_int a * scalar_int b + 2 ^ 383) / 2 ^ 384.
Proof. srep. apply sc_mul_shift_384. Qed.
Lemma prop_sc_bytes a l : (scalar_words a -> sc_get_b32 a = be_bytes 32 (scalar_int a)) /\
  (byte_list l -> length l = 32%nat ->
     scalar_valid (fst (sc_set_b32 l)) /\ scalar_int (fst (sc_set_b32 l)) = be_val l mod n /\ snd (sc_set_b32 l) = (n <=? be_val l) /\
     snd (sc_set_b32_seckey l) = ((0 <? be_val l) && (be_val l <? n))).
Proof.
  srep. split; [apply sc_get_b32_ok|]. intros B L. destruct (sc_set_b32_ok l B L) as (C & D & E). destruct (sc_set_b32_seckey_ok l B L) as (_ & _ & H). srep. tauto.
Qed.
Lemma prop_sc_split_128 k : scalar_valid k ->
  scalar_valid (fst (sc_split_128 k)) /\ scalar_valid (snd (sc_split_128 k)) /\
  scalar_int (fst (sc_split_128 k)) = scalar_int k mod 2 ^ 128 /\ scalar_int (snd (sc_split_128 k)) = scalar_int k / 2 ^ 128.
Proof. srep. apply sc_split_128_ok. Qed.
Lemma prop_sc_reduce_512 l0 l1 l2 l3 l4 l5 l6 l7 : Forall (fun x => 0 <= x < 2 ^ 64) [l0; l1; l2; l3; l4; l5; l6; l7] ->
  forall r, sc_reduce_512 (mkl8 l0 l1 l2 l3 l4 l5 l6 l7) = r ->
  scalar_valid r /\ scalar_int r = (l0 + 2 ^ 64 * l1 + 2 ^ 128 * l2 + 2 ^ 192 * l3 + 2 ^ 256 * l4 + 2 ^ 320 * l5 + 2 ^ 384 * l6 + 2 ^ 448 * l7) mod n.
Proof.
  intros H r <-. rewrite valid_iff, scalar_int_eq. destruct (sc_reduce_512_val (mkl8 l0 l1 l2 l3 l4 l5 l6 l7)) as (A & B).
  - repeat match goal with K : Forall _ (_ :: _) |- _ => inversion K; clear K; subst end. unfold l8_lim, wd. cbn [l_0 l_1 l_2 l_3 l_4 l_5 l_6 l_7]. tauto.
  - split; [exact A|]. rewrite B. clear. unfold lv. cbn [l_0 l_1 l_2 l_3 l_4 l_5 l_6 l_7]. f_equal. ring.
Qed.
Lemma prop_sc_cmov r a flag : scalar_words r -> scalar_words a -> flag = 0 \/ flag = 1 -> sc_cmov r a flag = if flag =? 0 then r else a.
Proof. srep. apply sc_cmov_ok. Qed.
Lemma prop_split k : scalar_valid k -> forall r1 r2, sc_split_lambda k = (r1, r2) ->
  scalar_valid r1 /\ scalar_valid r2 /\ (scalar_int r1 + lambda * scalar_int r2) mod n = scalar_int k /\
  (scalar_int r1 < 2 ^ 128 \/ n - scalar_int r1 < 2 ^ 128) /\ (scalar_int r2 < 2 ^ 128 \/ n - scalar_int r2 < 2 ^ 128).
Proof.
  intros K r1 r2 E. rewrite !valid_iff, !scalar_int_eq in *. destruct (sc_split_lambda_ok k K) as (A & B & k1 & k2 & R1 & R2 & S1 & S2 & _ & T).
  rewrite E in *. cbn [fst snd] in *. split; [exact A|split; [exact B|split; [exact T|]]].
  assert (N : n = 115792089237316195423570985008687907852837564279074904382605163141518161494337) by reflexivity.
  assert (Q : forall c B0, - B0 < c < B0 -> B0 < 2 ^ 128 -> c mod n < 2 ^ 128 \/ n - c mod n < 2 ^ 128).
  { intros c B0 C1 C2. destruct (Z_lt_dec c 0) as [L|L].
    - right. replace (c mod n) with (c + n); [lia|]. symmetry. rewrite <- (Z_mod_plus_full c 1 n). rewrite Z.mul_1_l. apply Z.mod_small. lia.
    - left. rewrite Z.mod_small; lia. }
  rewrite S1, S2. split; [apply (Q k1 0xa2a8918ca85bafe22016d0b917e4dd77); [lia|reflexivity]|apply (Q k2 0x8a65287bd47179fb2be08846cea267ed); [lia|reflexivity]].
Qed.

(** ** Points *)
Ltac prep := rewrite ?aff_iff, ?jac_iff in *.
Lemma prop_double a P : jacobian_point a P -> jacobian_point (gej_double a) (padd P P) /\ jacobian_point (gej_double_var a) (padd P P).
Proof. prep. intro A. split; [exact (gej_double_ok f1 a P f1_nz A)|]. apply (gej_double_var_ok f1 a P f1_nz A). Qed.
Lemma prop_add_var a b P Q : jacobian_point a P -> jacobian_point b Q -> jacobian_point (gej_add_var a b) (padd P Q).
Proof. prep. apply gej_add_var_ok, f1_nz. Qed.
Lemma prop_add_ge_var a b P Q : jacobian_point a P -> affine_point b Q -> jacobian_point (gej_add_ge_var a b) (padd P Q).
Proof. prep. intros A B. apply (gej_add_ge_var_ok f1 a b P Q f1_nz A B). Qed.
Lemma prop_add_ge a b P Q : jacobian_point a P -> affine_point b Q -> Q <> Inf -> jacobian_point (gej_add_ge a b) (padd P Q).
Proof. prep. intros A B N. apply gej_add_ge_ok; [exact f1_nz|exact A|exact B|]. destruct Q as [|x y]; [contradiction|]. apply B. Qed.
(** The routine for a second operand known up to the inverse of its Z coordinate. *)
Lemma prop_add_zinv_var a b z bzinv P Q : jacobian_point a P -> jacobian_point (mkgej (gx b) (gy b) z (ginf b)) Q -> magnitude 3 (gy b) ->
  magnitude 8 bzinv -> (fe_int z * fe_int bzinv) mod p = 1 -> jacobian_point (gej_add_zinv_var a b bzinv) (padd P Q).
Proof.
  rewrite !jac_iff. intros A B M Z I. apply (gej_add_zinv_var_ok f1 (fv z)); [exact f1_nz| |exact Z|exact A|].
  - unfold fv. rewrite <- toF_mul, <- !fe_int_eq, <- toF_one. apply toF_eq. rewrite I. reflexivity.
  - destruct B as (B1 & B2 & B3 & B4 & B5). cbn [jx jy jz jinf] in B1, B2, B3, B5. split; [exact B1|split; [exact M|split; [exact B4|]]].
    destruct Q as [|x y]; [exact B5|]. destruct B5 as (C1 & C2 & C3 & C4). split; [exact C1|]. rewrite C3, C4. split; ring.
Qed.
Lemma prop_neg a b P : (jacobian_point a P -> jacobian_point (gej_neg a) (pneg P)) /\ (affine_point b P -> affine_point (ge_neg b) (pneg P)).
Proof. prep. split; [apply gej_neg_ok|apply ge_neg_ok]. Qed.
Lemma prop_set_gej a P : jacobian_point a P -> affine_point (ge_set_gej a) P /\ affine_point (ge_set_gej_var a) P.
Proof. prep. intro A. split; [apply (ge_set_gej_ok f1 a P A)|apply (ge_set_gej_var_ok f1 a P A)]. Qed.
Lemma Forall2_imp {A B} (P Q : A -> B -> Prop) l m : (forall a b, P a b -> Q a b) -> Forall2 P l m -> Forall2 Q l m.
Proof. intros H F. induction F; constructor; auto. Qed.
Lemma prop_set_all l Ps : Forall2 jacobian_point l Ps -> Forall2 affine_point (ge_set_all_gej_var l) Ps.
Proof.
  intro H. assert (K : Forall2 (gej_rep f1) l Ps) by (eapply Forall2_imp; [|exact H]; intros a P; apply jac_iff).
  eapply Forall2_imp; [|exact (ge_set_all_gej_var_ok f1 l Ps f1_nz K)]. intros a P. apply aff_iff.
Qed.
Lemma prop_set_ge a P : affine_point a P -> jacobian_point (gej_set_ge a) P.
Proof. prep. apply gej_set_ge_ok. Qed.
Lemma prop_eq_var a b P Q : jacobian_point a P -> jacobian_point b Q -> (gej_eq_var a b = true <-> P = Q).
Proof. prep. apply gej_eq_var_ok, f1_nz. Qed.
Lemma prop_set_xo x odd : magnitude 4 x ->
  (fst (ge_set_xo_var x odd) = true <-> is_square_mod_p (fe_int x ^ 3 + 7)) /\
  (fst (ge_set_xo_var x odd) = true -> exists y, affine_point (snd (ge_set_xo_var x odd)) (Aff (fe_res x) y) /\ Z.odd y = odd).
Proof.
  intro M. destruct (ge_set_xo_var_ok x odd M) as (A & _ & _ & _ & B). rewrite <- res_zv in A, B. split.
  - rewrite A. unfold is_square_mod_p.
    replace ((fe_res x * fe_res x * fe_res x + 7) mod p) with ((fe_int x ^ 3 + 7) mod p); [reflexivity|].
    apply toF_inj. rewrite !toF_add. f_equal. replace (fe_int x ^ 3) with (fe_int x * fe_int x * fe_int x) by ring. rewrite !toF_mul.
    unfold fe_res. rewrite !toF_mod. reflexivity.
  - intro T. destruct (B T) as (y & C & D). exists y. split; [now apply aff_iff|exact D].
Qed.
Lemma prop_mul_lambda a P : affine_point a P -> affine_point (ge_mul_lambda a) (pmul lambda P).
Proof. prep. apply ge_mul_lambda_ok. Qed.
