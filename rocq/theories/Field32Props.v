(** The 32-bit field read through the vocabulary of SpecRep32, and its agreement with the
    64-bit field. *)
Require Import ZArith List Bool Lia Ring Zpow_facts.
From Verif Require Import Word Word32 Bytes Spec ZmField Primes Curve FieldModel FieldMul FieldProof FieldProof2 FieldBytes FieldOps
  Field32Model Field32Mul Field32Proof Field32Ops Field32Bytes SpecRep32.
Import ListNotations.
Local Open Scope Z_scope.

Definition fv26 (a : fe26) : F := toF (f26val a).
Lemma f26_mul_mag a b : f26_mag 8 a -> f26_mag 8 b -> f26_mag 1 (f26_mul a b).
Proof.
  intros Ha Hb. apply mag_mul_in26 in Ha, Hb; try lia.
  destruct (f26_mul_inner_ok a b Ha Hb _ eq_refl) as (_ & H). unfold f26_mag. f26const. lia.
Qed.
Lemma f26_mul_fv a b : f26_mag 8 a -> f26_mag 8 b -> fv26 (f26_mul a b) = (fv26 a * fv26 b)%F.
Proof.
  intros Ha Hb. apply mag_mul_in26 in Ha, Hb; try lia.
  destruct (f26_mul_inner_ok a b Ha Hb _ eq_refl) as ((k & H) & _). unfold fv26. rewrite <- toF_mul.
  symmetry. exact (toF_k _ _ _ H).
Qed.
Lemma f26_sqr_mag a : f26_mag 8 a -> f26_mag 1 (f26_sqr a).
Proof.
  intros Ha. apply mag_mul_in26 in Ha; try lia.
  destruct (f26_sqr_inner_ok a Ha _ eq_refl) as (_ & H). unfold f26_mag. f26const. lia.
Qed.
Lemma f26_sqr_fv a : f26_mag 8 a -> fv26 (f26_sqr a) = (fv26 a * fv26 a)%F.
Proof.
  intros Ha. apply mag_mul_in26 in Ha; try lia.
  destruct (f26_sqr_inner_ok a Ha _ eq_refl) as ((k & H) & _). unfold fv26. rewrite <- toF_mul.
  symmetry. exact (toF_k _ _ _ H).
Qed.
Lemma f26_negate_fv m a : f26_mag m a -> 0 <= m <= 31 -> fv26 (f26_negate a m) = (- fv26 a)%F.
Proof.
  intros H1 H2. unfold fv26. rewrite (proj2 (f26_negate_ok m a H1 H2)). rewrite <- toF_opp. apply toF_eq.
  replace (2 * (m + 1) * p - f26val a) with (- f26val a + (2 * (m + 1)) * p) by ring. apply Z_mod_plus_full.
Qed.
Lemma f26_equal_spec m a b : f26_mag 1 a -> f26_mag m b -> 0 <= m <= 29 -> (f26_equal a b = true <-> fv26 a = fv26 b).
Proof.
  intros Ha Hb Hm. unfold f26_equal.
  destruct (f26_negate_ok 1 a Ha ltac:(lia)) as [N _]. change (1 + 1) with 2 in N.
  destruct (f26_add_ok 2 m _ b N Hb ltac:(lia) ltac:(lia) ltac:(lia)) as [A V].
  rewrite f26_nz_ok by (apply (f26_mag_weaken (2 + m)); [exact A|lia]).
  rewrite Z.eqb_eq, <- toF_0_iff, V, toF_add.
  change (toF (f26val (f26_negate a 1))) with (fv26 (f26_negate a 1)). rewrite (f26_negate_fv 1) by (assumption || lia). apply fsub_0.
Qed.

Lemma f26_sqr_n_ok v k : forall x e, f26_mag 8 x -> 0 <= e -> fv26 x = toF (v ^ e) ->
  f26_mag 8 (f26_sqr_n k x) /\ fv26 (f26_sqr_n k x) = toF (v ^ (e * 2 ^ Z.of_nat k)).
Proof.
  induction k as [|k IH]; intros x e Hx He Ex; cbn [f26_sqr_n].
  - change (Z.of_nat 0) with 0. rewrite Z.pow_0_r, Z.mul_1_r. auto.
  - rewrite Nat2Z.inj_succ, Z.pow_succ_r by lia.
    replace (e * (2 * 2 ^ Z.of_nat k)) with (2 * e * 2 ^ Z.of_nat k) by ring.
    apply IH; [|lia|].
    + apply (f26_mag_weaken 1); [now apply f26_sqr_mag|lia].
    + rewrite f26_sqr_fv, Ex, <- toF_mul by assumption. rewrite <- Z.pow_add_r by lia. now replace (e + e) with (2 * e) by ring.
Qed.
Lemma f26_mul_pow v x y e f : f26_mag 8 x /\ fv26 x = toF (v ^ e) -> f26_mag 8 y /\ fv26 y = toF (v ^ f) -> 0 <= e -> 0 <= f ->
  f26_mag 8 (f26_mul x y) /\ fv26 (f26_mul x y) = toF (v ^ (e + f)).
Proof.
  intros [Hx Ex] [Hy Ey] He Hf. split.
  - apply (f26_mag_weaken 1); [now apply f26_mul_mag|lia].
  - rewrite f26_mul_fv, Ex, Ey, <- toF_mul, <- Z.pow_add_r by assumption. reflexivity.
Qed.
Lemma f26_sqr_n_pow v k x e : f26_mag 8 x /\ fv26 x = toF (v ^ e) -> 0 <= e ->
  f26_mag 8 (f26_sqr_n k x) /\ fv26 (f26_sqr_n k x) = toF (v ^ (e * 2 ^ Z.of_nat k)).
Proof. intros [H1 H2] H3. now apply f26_sqr_n_ok. Qed.
Lemma f26_sqr_pow v x e : f26_mag 8 x /\ fv26 x = toF (v ^ e) -> 0 <= e ->
  f26_mag 8 (f26_sqr x) /\ fv26 (f26_sqr x) = toF (v ^ (e * 2 ^ Z.of_nat 1)).
Proof. intros H1 H3. exact (f26_sqr_n_pow v 1 x e H1 H3). Qed.

Definition is_pow26 (v : Z) (x : fe26) (e : Z) : Prop := f26_mag 8 x /\ fv26 x = toF (v ^ e).
Lemma pow_step26 v k x e y f g : is_pow26 v x e -> is_pow26 v y f ->
  (0 <=? e) && (0 <=? f) && (e * 2 ^ Z.of_nat k + f =? g) = true -> is_pow26 v (f26_mul (f26_sqr_n k x) y) g.
Proof.
  intros Hx Hy HH. apply andb_prop in HH as [HH Eg]. apply andb_prop in HH as [He Hf].
  apply Z.leb_le in He, Hf. apply Z.eqb_eq in Eg. subst g.
  apply f26_mul_pow; [now apply f26_sqr_n_pow|assumption| |assumption].
  apply Z.mul_nonneg_nonneg; [assumption|]. apply Z.pow_nonneg. lia.
Qed.
Lemma pow_sqr26 v x e g : is_pow26 v x e -> (0 <=? e) && (e * 2 =? g) = true -> is_pow26 v (f26_sqr x) g.
Proof.
  intros Hx HH. apply andb_prop in HH as [He Eg]. apply Z.leb_le in He. apply Z.eqb_eq in Eg. subst g.
  exact (f26_sqr_pow v x e Hx He).
Qed.
Lemma pow_sqr_mul26 v x e y f g : is_pow26 v x e -> is_pow26 v y f ->
  (0 <=? e) && (0 <=? f) && (e * 2 ^ Z.of_nat 1 + f =? g) = true -> is_pow26 v (f26_mul (f26_sqr x) y) g.
Proof. exact (pow_step26 v 1 x e y f g). Qed.

Lemma f26_sqrt_chain a q : f26_sqrt a = q -> f26_mag 8 a -> f26_mag 1 (snd q) /\ fv26 (snd q) = toF (f26val a ^ ((p + 1) / 4)) /\
  fst q = f26_equal (f26_sqr (snd q)) a.
Proof.
  intros H Ha. set (v := f26val a). 
  assert (P1 : is_pow26 v a 1) by (unfold is_pow26; rewrite Z.pow_1_r; now split).
  clearbody v. unfold f26_sqrt in H. letb_steps H.
  assert (P2 : is_pow26 v x2 3) by (rewrite Ex2; now apply pow_sqr_mul26 with 1 1).
  assert (P3 : is_pow26 v x3 7) by (rewrite Ex3; now apply pow_sqr_mul26 with 3 1).
  assert (P6 : is_pow26 v x6 (2 ^ 6 - 1)) by (rewrite Ex6; now apply pow_step26 with 7 7).
  assert (P9 : is_pow26 v x9 (2 ^ 9 - 1)) by (rewrite Ex9; now apply pow_step26 with (2 ^ 6 - 1) 7).
  assert (P11 : is_pow26 v x11 (2 ^ 11 - 1)) by (rewrite Ex11; now apply pow_step26 with (2 ^ 9 - 1) 3).
  assert (P22 : is_pow26 v x22 (2 ^ 22 - 1)) by (rewrite Ex22; now apply pow_step26 with (2 ^ 11 - 1) (2 ^ 11 - 1)).
  assert (P44 : is_pow26 v x44 (2 ^ 44 - 1)) by (rewrite Ex44; now apply pow_step26 with (2 ^ 22 - 1) (2 ^ 22 - 1)).
  assert (P88 : is_pow26 v x88 (2 ^ 88 - 1)) by (rewrite Ex88; now apply pow_step26 with (2 ^ 44 - 1) (2 ^ 44 - 1)).
  assert (P176 : is_pow26 v x176 (2 ^ 176 - 1)) by (rewrite Ex176; now apply pow_step26 with (2 ^ 88 - 1) (2 ^ 88 - 1)).
  assert (P220 : is_pow26 v x220 (2 ^ 220 - 1)) by (rewrite Ex220; now apply pow_step26 with (2 ^ 176 - 1) (2 ^ 44 - 1)).
  assert (P223 : is_pow26 v x223 (2 ^ 223 - 1)) by (rewrite Ex223; now apply pow_step26 with (2 ^ 220 - 1) 7).
  assert (PA : is_pow26 v t1 ((2 ^ 223 - 1) * 2 ^ 23 + 2 ^ 22 - 1)) by (rewrite Et1; now apply pow_step26 with (2 ^ 223 - 1) (2 ^ 22 - 1)).
  assert (PB : is_pow26 v t2 (((2 ^ 223 - 1) * 2 ^ 23 + 2 ^ 22 - 1) * 2 ^ 6 + 3)) by (rewrite Et2; now apply pow_step26 with ((2 ^ 223 - 1) * 2 ^ 23 + 2 ^ 22 - 1) 3).
  assert (PC : is_pow26 v (f26_sqr t2) ((((2 ^ 223 - 1) * 2 ^ 23 + 2 ^ 22 - 1) * 2 ^ 6 + 3) * 2)) by (now apply pow_sqr26 with (((2 ^ 223 - 1) * 2 ^ 23 + 2 ^ 22 - 1) * 2 ^ 6 + 3)).
  assert (PD : is_pow26 v r ((p + 1) / 4)) by (rewrite Er; now apply pow_sqr26 with ((((2 ^ 223 - 1) * 2 ^ 23 + 2 ^ 22 - 1) * 2 ^ 6 + 3) * 2)).
  subst q. cbn [fst snd]. split; [|split; [apply PD|reflexivity]]. rewrite Er. apply f26_sqr_mag. apply PC.
Qed.

Lemma f26_sqrt_root a : f26_mag 8 a -> 
  f26_mag 1 (snd (f26_sqrt a)) /\ fv26 (snd (f26_sqrt a)) = toF (f26val a ^ ((p + 1) / 4)).
Proof. intros Ha. destruct (f26_sqrt_chain a _ eq_refl Ha) as (H1 & H2 & _). now split. Qed.

Lemma f26_sqrt_spec a : f26_mag 8 a ->
  (fst (f26_sqrt a) = true <-> is_square_mod_p (f26val a)) /\
  (fst (f26_sqrt a) = true -> (fv26 (snd (f26_sqrt a)) * fv26 (snd (f26_sqrt a)))%F = fv26 a) /\
  f26_mag 1 (snd (f26_sqrt a)).
Proof.
  intros Ha. destruct (f26_sqrt_root a Ha) as [M R].
  assert (FE : fst (f26_sqrt a) = f26_equal (f26_sqr (snd (f26_sqrt a))) a) by (now apply f26_sqrt_chain).
  set (r := snd (f26_sqrt a)) in *. clearbody r. rewrite FE. clear FE.
  assert (M8 : f26_mag 8 r) by (apply (f26_mag_weaken 1); [assumption|lia]).
  assert (ES : f26_equal (f26_sqr r) a = true <-> (fv26 r * fv26 r)%F = fv26 a).
  { rewrite (f26_equal_spec 8); [|now apply f26_sqr_mag|assumption|lia]. now rewrite f26_sqr_fv. }
  split; [|split; [apply ES|exact M]].
  rewrite ES. split.
  - intros E. exists (zv (fv26 r)). rewrite <- (toF_zv (fv26 r)), <- toF_mul in E. apply toF_inj in E. exact E.
  - intros [b E]. rewrite R, <- toF_mul. apply toF_eq. now apply sqrt_power with b.
Qed.


Lemma fe26_int_eq a : fe26_int a = f26val a. Proof. unfold fe26_int, f26val, val26. ring. Qed.
Lemma mag26_iff m a : magnitude26 m a <-> f26_mag m a. Proof. reflexivity. Qed.
Lemma norm26_iff a : normalized26 a <-> f26_norm a.
Proof. unfold normalized26, f26_norm. rewrite fe26_int_eq. unfold M26, M22. f26const. lia. Qed.
Lemma storage26_int_eq s : storage26_int s = s26val s. Proof. unfold storage26_int, s26val. ring. Qed.
Lemma storage26_iff s : storage26_words s <-> s26_ok s. Proof. reflexivity. Qed.
Lemma res26_eq a v : fv26 a = toF v -> fe26_res a = v mod p.
Proof. intros E. unfold fe26_res. rewrite fe26_int_eq. apply toF_inj. exact E. Qed.

Lemma prop32_mul a b : magnitude26 8 a -> magnitude26 8 b ->
  magnitude26 1 (f26_mul a b) /\ fe26_res (f26_mul a b) = (fe26_int a * fe26_int b) mod p.
Proof.
  intros A B. split; [now apply f26_mul_mag|]. apply res26_eq. rewrite f26_mul_fv by assumption. rewrite toF_mul, !fe26_int_eq. reflexivity.
Qed.
Lemma prop32_sqr a : magnitude26 8 a -> magnitude26 1 (f26_sqr a) /\ fe26_res (f26_sqr a) = (fe26_int a ^ 2) mod p.
Proof.
  intros A. split; [now apply f26_sqr_mag|]. apply res26_eq. rewrite f26_sqr_fv by assumption.
  replace (fe26_int a ^ 2) with (fe26_int a * fe26_int a) by ring. rewrite toF_mul, !fe26_int_eq. reflexivity.
Qed.
Lemma prop32_linear m k j a b : magnitude26 m a -> magnitude26 k b -> 0 <= m -> 0 <= k -> 0 <= j ->
  (m + k <= 32 -> magnitude26 (m + k) (f26_add a b) /\ fe26_int (f26_add a b) = fe26_int a + fe26_int b) /\
  (m <= 31 -> j <= 0x7FFF -> magnitude26 (m + 1) (f26_add_int a j) /\ fe26_int (f26_add_int a j) = fe26_int a + j) /\
  (m <= 31 -> magnitude26 (m + 1) (f26_negate a m) /\ fe26_res (f26_negate a m) = (- fe26_int a) mod p) /\
  (m * j <= 32 -> magnitude26 (m * j) (f26_mul_int a j) /\ fe26_int (f26_mul_int a j) = fe26_int a * j) /\
  (m <= 31 -> magnitude26 (m / 2 + 1) (f26_half a) /\ (2 * fe26_int (f26_half a)) mod p = fe26_res a).
Proof.
  unfold fe26_res. rewrite !fe26_int_eq. intros A B Hm Hk Hj.
  split; [|split; [|split; [|split]]]; intros.
  - now apply f26_add_ok.
  - now apply f26_add_int_ok.
  - split; [now apply f26_negate_ok|]. rewrite (proj2 (f26_negate_ok m a A ltac:(lia))).
    replace (2 * (m + 1) * p - f26val a) with (- f26val a + (2 * (m + 1)) * p) by ring. apply Z_mod_plus_full.
  - now apply f26_mul_int_ok.
  - destruct (f26_half_ok m a A ltac:(lia)) as (K & q & E). split; [exact K|]. rewrite E. apply Z_mod_plus_full.
Qed.
Lemma prop32_normalize a : magnitude26 31 a ->
  normalized26 (f26_normalize a) /\ fe26_int (f26_normalize a) = fe26_res a /\ f26_normalize_var a = f26_normalize a /\
  magnitude26 1 (f26_normalize_weak a) /\ fe26_res (f26_normalize_weak a) = fe26_res a /\
  f26_normalizes_to_zero a = (fe26_res a =? 0) /\ f26_normalizes_to_zero_var a = (fe26_res a =? 0).
Proof.
  intro A. destruct (f26_normalize_ok a A) as (B & C). destruct (f26_normalize_weak_ok a A) as (D & k & E).
  destruct (f26_normalize_var_ok a A) as (B' & C').
  unfold fe26_res. rewrite norm26_iff, !fe26_int_eq.
  split; [exact B|split; [exact C|split; [|split; [exact D|split; [|split]]]]].
  - apply f26_norm_inj; [assumption|assumption|]. now rewrite C, C'.
  - rewrite E. symmetry. apply Z_mod_plus_full.
  - now apply f26_nz_ok.
  - now apply f26_nz_var_ok.
Qed.
Lemma prop32_compare a b : normalized26 a -> normalized26 b ->
  f26_cmp_var a b = (if fe26_int a <? fe26_int b then -1 else if fe26_int a =? fe26_int b then 0 else 1) /\
  f26_is_zero a = (fe26_int a =? 0) /\ f26_is_odd a = Z.odd (fe26_int a).
Proof.
  rewrite !norm26_iff, !fe26_int_eq. intros A B. split; [|split].
  - rewrite (f26_cmp_var_ok a b A B). destruct (Z.compare_spec (f26val a) (f26val b)) as [E|E|E].
    + rewrite E, Z.ltb_irrefl, Z.eqb_refl. reflexivity.
    + apply Z.ltb_lt in E. now rewrite E.
    + replace (f26val a <? f26val b) with false by (symmetry; apply Z.ltb_ge; lia). replace (f26val a =? f26val b) with false by (symmetry; apply Z.eqb_neq; lia). reflexivity.
  - now apply f26_is_zero_ok.
  - apply f26_is_odd_ok.
Qed.
Lemma prop32_equal m a b : magnitude26 1 a -> magnitude26 m b -> 0 <= m <= 29 -> f26_equal a b = (fe26_res a =? fe26_res b).
Proof.
  intros A B M. apply eq_true_iff_eq. rewrite (f26_equal_spec m a b A B M), Z.eqb_eq. unfold fe26_res, fv26. rewrite !fe26_int_eq.
  split; [apply toF_inj|apply toF_eq].
Qed.
Lemma prop32_bytes a l : (normalized26 a -> f26_get_b32 a = be_bytes 32 (fe26_int a)) /\
  (byte_list l -> length l = 32%nat ->
     fe26_int (f26_set_b32_mod l) = be_val l /\ magnitude26 1 (f26_set_b32_mod l) /\
     (be_val l < p -> normalized26 (f26_set_b32_mod l) /\ f26_get_b32 (f26_set_b32_mod l) = l) /\
     f26_set_b32_limit l = (be_val l <? p, f26_set_b32_mod l)).
Proof.
  rewrite !norm26_iff, !fe26_int_eq. split; [apply f26_get_b32_ok|]. intros B L. destruct (f26_set_b32_mod_ok l B L) as (E & R). destruct (f26_set_b32_limit_ok l B L) as (E1 & E2).
  split; [exact E|split; [|split]].
  - clear E E1 E2. unfold magnitude26. f26const. lia.
  - intro V. assert (N : f26_norm (f26_set_b32_mod l)) by (now apply f26_set_b32_norm).
    split; [exact N|]. rewrite (f26_get_b32_ok _ N), E. rewrite <- L. apply be_bytes_be_val. exact B.
  - destruct (f26_set_b32_limit l) as [x y]. cbn in E1, E2. now rewrite E1, E2.
Qed.
Lemma prop32_storage a s : (normalized26 a -> storage26_words (f26_to_storage a) /\ storage26_int (f26_to_storage a) = fe26_int a /\
    f26_from_storage (f26_to_storage a) = a) /\
  (storage26_words s -> fe26_int (f26_from_storage s) = storage26_int s /\ magnitude26 1 (f26_from_storage s)).
Proof.
  rewrite !norm26_iff, !fe26_int_eq, !storage26_int_eq, !storage26_iff. split.
  - intros A. destruct (f26_to_storage_ok a A) as (B & C). split; [exact B|]. split; [exact C|]. now apply f26_storage_round.
  - intros B. destruct (f26_from_storage_ok s B) as (C & D & _). split; assumption.
Qed.
Lemma prop32_cmov m r a flag s t : magnitude26 m r -> magnitude26 m a -> 0 <= m <= 32 -> flag = 0 \/ flag = 1 ->
  storage26_words s -> storage26_words t ->
  f26_cmov r a flag = (if flag =? 0 then r else a) /\ f26_storage_cmov s t flag = (if flag =? 0 then s else t).
Proof.
  intros. split; [now apply (f26_cmov_ok m)|now apply f26_storage_cmov_ok].
Qed.
Lemma prop32_set_int k : 0 <= k <= 0x7FFF -> normalized26 (f26_set_int k) /\ fe26_int (f26_set_int k) = k.
Proof. rewrite norm26_iff, fe26_int_eq. apply f26_set_int_ok. Qed.
Lemma prop32_sqrt a : magnitude26 8 a ->
  (fst (f26_sqrt a) = true <-> exists y, (y * y) mod p = fe26_res a) /\
  (fst (f26_sqrt a) = true -> (fe26_int (snd (f26_sqrt a)) ^ 2) mod p = fe26_res a) /\ magnitude26 1 (snd (f26_sqrt a)).
Proof.
  intro A. destruct (f26_sqrt_spec a A) as (B & C & D). split; [|split; [|exact D]].
  - unfold fe26_res. rewrite fe26_int_eq. exact B.
  - intro T. specialize (C T). unfold fe26_res. rewrite !fe26_int_eq. apply toF_inj.
    rewrite Z.pow_2_r, toF_mul. exact C.
Qed.

(** Magnitude 32, which src/field.h allows, is too much for the 32-bit normalization. *)
Definition max26 : fe26 := mkf26 4294967232 4294967232 4294967232 4294967232 4294967232 4294967232 4294967232 4294967232 4294967232 268435392.
Lemma prop32_normalize_32 : exists a, magnitude26 32 a /\
  fe26_int (f26_normalize a) <> fe26_res a /\ fe26_int (f26_normalize_var a) <> fe26_res a /\ fe26_res (f26_normalize_weak a) <> fe26_res a.
Proof.
  exists max26. split; [unfold magnitude26, max26; cbn; lia|].
  split; [|split]; intros H; vm_compute in H; discriminate H.
Qed.

(** ** Agreement of the two builds *)
Lemma half_F (x a : F) : ((1 + 1) * x = a)%F -> x = (a * toF ((p + 1) / 2))%F.
Proof.
  intros E. assert (H : ((1 + 1) * toF ((p + 1) / 2))%F = f1).
  { change f1 with (toF 1). rewrite <- toF_add, <- toF_mul. apply toF_eq. vm_compute. reflexivity. }
  rewrite <- E. transitivity (x * ((1 + 1) * toF ((p + 1) / 2)))%F; [rewrite H; ring|ring].
Qed.
Lemma f26_half_fv m a : f26_mag m a -> 0 <= m <= 31 -> ((1 + 1) * fv26 (f26_half a) = fv26 a)%F.
Proof.
  intros H1 H2. destruct (f26_half_ok m a H1 H2) as [_ [k E]]. unfold fv26.
  change (f1) with (toF 1). rewrite <- toF_add, <- toF_mul. change (1 + 1) with 2. rewrite E.
  apply toF_eq. apply Z_mod_plus_full.
Qed.
Lemma fx_mag_range e : fx_ok e -> 0 <= fx_mag e <= 31.
Proof.
  induction e; cbn [fx_ok fx_mag]; intros H; try lia.
  - destruct H as (H1 & H2 & H3). specialize (IHe1 H1). specialize (IHe2 H2). lia.
  - destruct H as (H1 & H2 & H3). specialize (IHe H1). lia.
  - destruct H as (H1 & H2). specialize (IHe H1). lia.
  - destruct H as (H1 & H2 & H3). specialize (IHe H1). nia.
  - specialize (IHe H). pose proof (Z.div_mod (fx_mag e) 2 ltac:(lia)). pose proof (Z.mod_pos_bound (fx_mag e) 2 ltac:(lia)). lia.
Qed.
Lemma pow_toF v w e : 0 <= e -> toF v = toF w -> toF (v ^ e) = toF (w ^ e).
Proof.
  intros He E. apply toF_inj in E. apply toF_eq. rewrite (Zpower_mod v) by reflexivity. rewrite E. symmetry. now apply Zpower_mod.
Qed.
Lemma run64_ok e : fx_ok e -> fe_mag (fx_mag e) (run64 e) /\ fv (run64 e) = toF (fx_val e).
Proof.
  induction e; intros HO; pose proof (fx_mag_range _ HO) as HR; cbn [fx_ok fx_mag run64 fx_val] in *.
  - destruct HO. split; [now apply fe_set_b32_mod_mag|now apply fe_set_b32_mod_fv].
  - destruct (fe_set_int_ok k HO) as [A B]. split; [now apply norm_mag|]. unfold fv. now rewrite B.
  - destruct HO as (H1 & H2 & H3). pose proof (fx_mag_range _ H1). pose proof (fx_mag_range _ H2).
    destruct (IHe1 H1) as [A1 B1]. destruct (IHe2 H2) as [A2 B2].
    split; [apply fe_add_mag; assumption || lia|]. rewrite (fe_add_fv (fx_mag e1) (fx_mag e2)), B1, B2, toF_add by (assumption || lia). reflexivity.
  - destruct HO as (H1 & H2 & H3). pose proof (fx_mag_range _ H1). destruct (IHe H1) as [A1 B1].
    split; [apply fe_add_int_mag; assumption || lia|]. rewrite (fe_add_int_fv (fx_mag e)), B1, toF_add by (assumption || lia). reflexivity.
  - destruct HO as (H1 & H2). pose proof (fx_mag_range _ H1). destruct (IHe H1) as [A1 B1].
    assert (A2 : fe_mag m (run64 e)) by (apply (mag_weaken (fx_mag e)); [assumption|lia]).
    split; [apply fe_negate_mag; assumption || lia|]. rewrite (fe_negate_fv m), B1, toF_opp by (assumption || lia). reflexivity.
  - destruct HO as (H1 & H2 & H3). pose proof (fx_mag_range _ H1). destruct (IHe H1) as [A1 B1].
    split; [apply fe_mul_int_mag; assumption || lia|]. rewrite (fe_mul_int_fv (fx_mag e)), B1, toF_mul by (assumption || lia). reflexivity.
  - pose proof (fx_mag_range _ HO). destruct (IHe HO) as [A1 B1].
    split; [apply fe_half_mag; assumption || lia|]. rewrite toF_mul, <- B1. apply half_F. apply (fe_half_fv (fx_mag e)); assumption || lia.
  - destruct HO as (H1 & H2 & H3 & H4). destruct (IHe1 H1) as [A1 B1]. destruct (IHe2 H2) as [A2 B2].
    assert (A1' : fe_mag 8 (run64 e1)) by (apply (mag_weaken (fx_mag e1)); [assumption|lia]).
    assert (A2' : fe_mag 8 (run64 e2)) by (apply (mag_weaken (fx_mag e2)); [assumption|lia]).
    split; [now apply fe_mul_mag|]. now rewrite fe_mul_fv, B1, B2, toF_mul by assumption.
  - destruct HO as (H1 & H3). destruct (IHe H1) as [A1 B1].
    assert (A1' : fe_mag 8 (run64 e)) by (apply (mag_weaken (fx_mag e)); [assumption|lia]).
    split; [now apply fe_sqr_mag|]. now rewrite fe_sqr_fv, B1, toF_mul by assumption.
  - destruct (IHe HO) as [A1 B1]. pose proof (fx_mag_range _ HO).
    assert (A1' : fe_mag 32 (run64 e)) by (apply (mag_weaken (fx_mag e)); [assumption|lia]).
    destruct (fe_normalize_weak_ok _ A1') as [C D]. split; [exact C|]. now rewrite D.
  - destruct (IHe HO) as [A1 B1]. pose proof (fx_mag_range _ HO).
    assert (A1' : fe_mag 32 (run64 e)) by (apply (mag_weaken (fx_mag e)); [assumption|lia]).
    split; [apply norm_mag; now apply fe_normalize_norm|]. now rewrite fe_normalize_fv.
  - destruct HO as (H1 & H3). destruct (IHe H1) as [A1 B1].
    assert (A1' : fe_mag 8 (run64 e)) by (apply (mag_weaken (fx_mag e)); [assumption|lia]).
    destruct (fe_sqrt_root _ A1') as [C D]. split; [exact C|]. rewrite D. apply pow_toF; [vm_compute; discriminate|exact B1].
Qed.
Lemma run32_ok e : fx_ok e -> f26_mag (fx_mag e) (run32 e) /\ fv26 (run32 e) = toF (fx_val e).
Proof.
  induction e; intros HO; pose proof (fx_mag_range _ HO) as HR; cbn [fx_ok fx_mag run32 fx_val] in *.
  - destruct HO as [H1 H2]. destruct (f26_set_b32_mod_ok l H1 H2) as [E B]. split.
    + clear -B. unfold f26_mag. f26const. lia.
    + unfold fv26. now rewrite E.
  - destruct (f26_set_int_ok k HO) as [A B]. split; [now apply f26_norm_mag|]. unfold fv26. now rewrite B.
  - destruct HO as (H1 & H2 & H3). pose proof (fx_mag_range _ H1). pose proof (fx_mag_range _ H2).
    destruct (IHe1 H1) as [A1 B1]. destruct (IHe2 H2) as [A2 B2].
    destruct (f26_add_ok _ _ _ _ A1 A2 ltac:(lia) ltac:(lia) ltac:(lia)) as [C D]. split; [exact C|].
    unfold fv26 in *. rewrite D, !toF_add. now rewrite B1, B2.
  - destruct HO as (H1 & H2 & H3). pose proof (fx_mag_range _ H1). destruct (IHe H1) as [A1 B1].
    destruct (f26_add_int_ok _ k _ A1 ltac:(lia) ltac:(lia)) as [C D]. split; [exact C|].
    unfold fv26 in *. rewrite D, !toF_add. now rewrite B1.
  - destruct HO as (H1 & H2). pose proof (fx_mag_range _ H1). destruct (IHe H1) as [A1 B1].
    assert (A2 : f26_mag m (run32 e)) by (apply (f26_mag_weaken (fx_mag e)); [assumption|lia]).
    split; [apply f26_negate_ok; assumption || lia|]. rewrite (f26_negate_fv m), B1, toF_opp by (assumption || lia). reflexivity.
  - destruct HO as (H1 & H2 & H3). pose proof (fx_mag_range _ H1). destruct (IHe H1) as [A1 B1].
    destruct (f26_mul_int_ok _ k _ A1 ltac:(lia) ltac:(lia) ltac:(lia)) as [C D]. split; [exact C|].
    unfold fv26 in *. rewrite D, !toF_mul. now rewrite B1.
  - pose proof (fx_mag_range _ HO). destruct (IHe HO) as [A1 B1].
    split; [apply f26_half_ok; assumption || lia|]. rewrite toF_mul, <- B1. apply half_F. apply (f26_half_fv (fx_mag e)); assumption || lia.
  - destruct HO as (H1 & H2 & H3 & H4). destruct (IHe1 H1) as [A1 B1]. destruct (IHe2 H2) as [A2 B2].
    assert (A1' : f26_mag 8 (run32 e1)) by (apply (f26_mag_weaken (fx_mag e1)); [assumption|lia]).
    assert (A2' : f26_mag 8 (run32 e2)) by (apply (f26_mag_weaken (fx_mag e2)); [assumption|lia]).
    split; [now apply f26_mul_mag|]. now rewrite f26_mul_fv, B1, B2, toF_mul by assumption.
  - destruct HO as (H1 & H3). destruct (IHe H1) as [A1 B1].
    assert (A1' : f26_mag 8 (run32 e)) by (apply (f26_mag_weaken (fx_mag e)); [assumption|lia]).
    split; [now apply f26_sqr_mag|]. now rewrite f26_sqr_fv, B1, toF_mul by assumption.
  - destruct (IHe HO) as [A1 B1]. pose proof (fx_mag_range _ HO).
    assert (A1' : f26_mag 31 (run32 e)) by (apply (f26_mag_weaken (fx_mag e)); [assumption|lia]).
    destruct (f26_normalize_weak_ok _ A1') as [C [q D]]. split; [exact C|]. rewrite <- B1. unfold fv26. rewrite D. symmetry. apply (toF_k _ _ q). reflexivity.
  - destruct (IHe HO) as [A1 B1]. pose proof (fx_mag_range _ HO).
    assert (A1' : f26_mag 31 (run32 e)) by (apply (f26_mag_weaken (fx_mag e)); [assumption|lia]).
    destruct (f26_normalize_ok _ A1') as [C D].
    split; [now apply f26_norm_mag|]. rewrite <- B1. unfold fv26. rewrite D. apply toF_mod.
  - destruct HO as (H1 & H3). destruct (IHe H1) as [A1 B1].
    assert (A1' : f26_mag 8 (run32 e)) by (apply (f26_mag_weaken (fx_mag e)); [assumption|lia]).
    destruct (f26_sqrt_root _ A1') as [C D]. split; [exact C|]. rewrite D. apply pow_toF; [vm_compute; discriminate|exact B1].
Qed.
Lemma prop32_agree e : fx_ok e ->
  f26_get_b32 (f26_normalize (run32 e)) = be_bytes 32 (fx_val e mod p) /\
  fe_get_b32 (fe_normalize (run64 e)) = be_bytes 32 (fx_val e mod p) /\
  f26_normalizes_to_zero (run32 e) = fe_normalizes_to_zero (run64 e).
Proof.
  intros H. pose proof (fx_mag_range e H) as R. destruct (run64_ok e H) as [A B]. destruct (run32_ok e H) as [C D].
  apply (mag_weaken _ 32) in A; [|lia]. apply (f26_mag_weaken _ 31) in C; [|lia].
  destruct (fe_normalize_ok _ A) as [A1 A2]. destruct (f26_normalize_ok _ C) as [C1 C2].
  unfold fv in B. unfold fv26 in D. apply toF_inj in B, D.
  split; [|split].
  - rewrite (f26_get_b32_ok _ C1), C2, D. reflexivity.
  - rewrite (fe_get_b32_ok _ A1), A2, B. reflexivity.
  - rewrite (f26_nz_ok _ C). destruct (fe_nz_eq _ A) as [-> _]. now rewrite B, D.
Qed.

Lemma mag26_example : magnitude26 8 (mkf26 (2 ^ 30 - 16) (2 ^ 30 - 16) (2 ^ 30 - 16) (2 ^ 30 - 16) (2 ^ 30 - 16) (2 ^ 30 - 16) (2 ^ 30 - 16) (2 ^ 30 - 16) (2 ^ 30 - 16) (2 ^ 26 - 16)).
Proof. unfold magnitude26. cbn. lia. Qed.
Lemma norm26_example : normalized26 (mkf26 0x3FFFC2E 0x3FFFFBF 0x3FFFFFF 0x3FFFFFF 0x3FFFFFF 0x3FFFFFF 0x3FFFFFF 0x3FFFFFF 0x3FFFFFF 0x3FFFFF).
Proof. unfold normalized26, fe26_int. cbn [m0 m1 m2 m3 m4 m5 m6 m7 m8 m9]. rewrite p_26. lia. Qed.
