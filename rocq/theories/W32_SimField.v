(** The field of the 32-bit build next to that of the 64-bit build: every operation on the same
    numbers gives the same numbers, at the same magnitude. *)
Require Import ZArith List Bool Lia Ring Field.
From Verif Require Import Word Word32 Bytes Spec ZmField Primes Curve FieldModel FieldMul FieldProof FieldProof2 FieldBytes FieldOps
  Field32Model Field32Mul Field32Proof Field32Ops Field32Bytes SpecRep SpecRep32 Field32Props Modinv32Model Modinv32Props W32_Base W32_Tight.
Import ListNotations.
Local Open Scope Z_scope.

(** Same residue, both of magnitude [m]. *)
Definition rf (m : Z) (a : fe26) (b : fe) : Prop := f26_mag m a /\ fe_mag m b /\ fv26 a = fv b.
(** Same integer below 2^256, limbs in canonical ranges. *)
Definition rt (a : fe26) (b : fe) : Prop := tight32 a /\ tight64 b /\ f26val a = fval b.
(** Same integer below p. *)
Definition rn (a : fe26) (b : fe) : Prop := f26_norm a /\ fe_norm b /\ f26val a = fval b.

Lemma rn_rt a b : rn a b -> rt a b.
Proof. intros (A & B & E). split; [exact (norm26_tight _ A)|]. split; [exact (norm_tight _ B)|exact E]. Qed.
Lemma rt_rf a b : rt a b -> rf 1 a b.
Proof.
  intros (A & B & E). split; [exact (tight26_mag _ A)|]. split; [exact (tight_mag _ B)|].
  unfold fv26, fv. rewrite E. reflexivity.
Qed.
Lemma rn_rf a b : rn a b -> rf 1 a b.
Proof. intros H. exact (rt_rf _ _ (rn_rt _ _ H)). Qed.
Lemma rf_weaken m k a b : rf m a b -> m <= k -> rf k a b.
Proof. intros (A & B & E) H. split; [exact (f26_mag_weaken m k _ A H)|]. split; [exact (mag_weaken m k _ B H)|exact E]. Qed.
Lemma rf_mod m a b : rf m a b -> f26val a mod p = fval b mod p.
Proof. intros (_ & _ & E). exact (toF_inj _ _ E). Qed.

Lemma rf_mul m k a b c d : rf m a b -> rf k c d -> m <= 8 -> k <= 8 -> rf 1 (f26_mul a c) (fe_mul b d).
Proof.
  intros H K Hm Hk. apply (rf_weaken m 8) in H; [|exact Hm]. apply (rf_weaken k 8) in K; [|exact Hk].
  destruct H as (A & B & E), K as (C & D & G).
  split; [exact (f26_mul_mag _ _ A C)|]. split; [exact (fe_mul_mag _ _ B D)|].
  rewrite (f26_mul_fv _ _ A C), (fe_mul_fv _ _ B D), E, G. reflexivity.
Qed.
Lemma rf_sqr m a b : rf m a b -> m <= 8 -> rf 1 (f26_sqr a) (fe_sqr b).
Proof.
  intros H Hm. apply (rf_weaken m 8) in H; [|exact Hm].
  destruct H as (A & B & E).
  split; [exact (f26_sqr_mag _ A)|]. split; [exact (fe_sqr_mag _ B)|].
  rewrite (f26_sqr_fv _ A), (fe_sqr_fv _ B), E. reflexivity.
Qed.
Lemma fv26_add m k a b : f26_mag m a -> f26_mag k b -> 0 <= m -> 0 <= k -> m + k <= 32 -> fv26 (f26_add a b) = (fv26 a + fv26 b)%F.
Proof. intros A B Hm Hk H. unfold fv26. rewrite (proj2 (f26_add_ok m k a b A B Hm Hk H)). apply toF_add. Qed.
Lemma rf_add m k a b c d : rf m a b -> rf k c d -> 0 <= m -> 0 <= k -> m + k <= 32 -> rf (m + k) (f26_add a c) (fe_add b d).
Proof.
  intros (A & B & E) (C & D & G) Hm Hk H.
  split; [exact (proj1 (f26_add_ok m k _ _ A C Hm Hk H))|]. split; [exact (fe_add_mag m k _ _ B D Hm Hk H)|].
  rewrite (fv26_add m k _ _ A C Hm Hk H), (fe_add_fv m k _ _ B D Hm Hk H), E, G. reflexivity.
Qed.
Lemma rf_add_int m k a b : rf m a b -> 0 <= k <= 0x7FFF -> 0 <= m <= 31 -> rf (m + 1) (f26_add_int a k) (fe_add_int b k).
Proof.
  intros (A & B & E) Hk Hm.
  split; [exact (proj1 (f26_add_int_ok m k _ A Hk Hm))|]. split; [exact (fe_add_int_mag m k _ B Hk Hm)|].
  rewrite (fe_add_int_fv m k _ B Hk Hm), <- E. unfold fv26. rewrite (proj2 (f26_add_int_ok m k _ A Hk Hm)). apply toF_add.
Qed.
Lemma rf_negate m a b : rf m a b -> 0 <= m <= 31 -> rf (m + 1) (f26_negate a m) (fe_negate b m).
Proof.
  intros (A & B & E) Hm.
  split; [exact (proj1 (f26_negate_ok m _ A Hm))|]. split; [exact (fe_negate_mag m _ B Hm)|].
  rewrite (fe_negate_fv m _ B Hm), (f26_negate_fv m _ A Hm), E. reflexivity.
Qed.
Lemma rf_mul_int m k a b : rf m a b -> 0 <= m -> 0 <= k -> m * k <= 32 -> rf (m * k) (f26_mul_int a k) (fe_mul_int b k).
Proof.
  intros (A & B & E) Hm Hk H.
  split; [exact (proj1 (f26_mul_int_ok m k _ A Hm Hk H))|]. split; [exact (fe_mul_int_mag m k _ B Hm Hk H)|].
  rewrite (fe_mul_int_fv m k _ B Hm Hk H), <- E. unfold fv26. rewrite (proj2 (f26_mul_int_ok m k _ A Hm Hk H)). apply toF_mul.
Qed.
Lemma rf_half m a b : rf m a b -> 0 <= m <= 31 -> rf (m / 2 + 1) (f26_half a) (fe_half b).
Proof.
  intros (A & B & E) Hm.
  split; [exact (proj1 (f26_half_ok m _ A Hm))|]. split; [exact (fe_half_mag m _ B Hm)|].
  rewrite (half_F _ _ (f26_half_fv m _ A Hm)), (half_F _ _ (fe_half_fv m _ B Hm)), E. reflexivity.
Qed.
Lemma rf_cmov m a b c d flag : rf m a b -> rf m c d -> 0 <= m <= 32 -> flag = 0 \/ flag = 1 -> rf m (f26_cmov a c flag) (fe_cmov b d flag).
Proof.
  intros (A & B & E) (C & D & G) Hm Hf.
  rewrite (f26_cmov_ok m _ _ _ A C Hm Hf), (fe_cmov_ok m _ _ _ B D Hm Hf).
  destruct (flag =? 0); [split; [exact A|]; split; [exact B|exact E]|split; [exact C|]; split; [exact D|exact G]].
Qed.
Lemma rn_cmov a b c d flag : rn a b -> rn c d -> flag = 0 \/ flag = 1 -> rn (f26_cmov a c flag) (fe_cmov b d flag).
Proof.
  intros (A & B & E) (C & D & G) Hf.
  rewrite (f26_cmov_ok 1 _ _ _ (f26_norm_mag _ A) (f26_norm_mag _ C) ltac:(lia) Hf), (fe_cmov_ok 1 _ _ _ (norm_mag _ B) (norm_mag _ D) ltac:(lia) Hf).
  destruct (flag =? 0); [split; [exact A|]; split; [exact B|exact E]|split; [exact C|]; split; [exact D|exact G]].
Qed.
Lemma rf_nz m a b : rf m a b -> m <= 31 -> f26_normalizes_to_zero a = fe_normalizes_to_zero b.
Proof.
  intros H Hm. pose proof (rf_mod m a b H) as V. destruct H as (A & B & _).
  rewrite (f26_nz_ok _ (f26_mag_weaken m 31 _ A Hm)), (proj1 (fe_nz_eq _ (mag_weaken m 32 _ B ltac:(lia)))), V. reflexivity.
Qed.
Lemma rf_nz_var m a b : rf m a b -> m <= 31 -> f26_normalizes_to_zero_var a = fe_normalizes_to_zero_var b.
Proof.
  intros H Hm. pose proof (rf_mod m a b H) as V. destruct H as (A & B & _).
  rewrite (f26_nz_var_ok _ (f26_mag_weaken m 31 _ A Hm)), (proj2 (fe_nz_eq _ (mag_weaken m 32 _ B ltac:(lia)))), V. reflexivity.
Qed.
Lemma rn_normalize m a b : rf m a b -> m <= 31 -> rn (f26_normalize a) (fe_normalize b).
Proof.
  intros H Hm. pose proof (rf_mod m a b H) as V. destruct H as (A & B & _).
  destruct (f26_normalize_ok _ (f26_mag_weaken m 31 _ A Hm)) as (N1 & V1).
  destruct (fe_normalize_ok _ (mag_weaken m 32 _ B ltac:(lia))) as (N2 & V2).
  split; [exact N1|]. split; [exact N2|]. rewrite V1, V2, V. reflexivity.
Qed.
Lemma rn_normalize_var m a b : rf m a b -> m <= 31 -> rn (f26_normalize_var a) (fe_normalize_var b).
Proof.
  intros H Hm. pose proof (rf_mod m a b H) as V. destruct H as (A & B & _).
  pose proof (mag_weaken m 32 _ B ltac:(lia)) as B'.
  destruct (f26_normalize_var_ok _ (f26_mag_weaken m 31 _ A Hm)) as (N1 & V1).
  rewrite (fe_normalize_var_eq _ B').
  destruct (fe_normalize_ok _ B') as (N2 & V2).
  split; [exact N1|]. split; [exact N2|]. rewrite V1, V2, V. reflexivity.
Qed.
Lemma rf_normalize_weak m a b : rf m a b -> m <= 31 -> rf 1 (f26_normalize_weak a) (fe_normalize_weak b).
Proof.
  intros H Hm. destruct H as (A & B & E).
  destruct (f26_normalize_weak_ok _ (f26_mag_weaken m 31 _ A Hm)) as (N1 & k & V1).
  destruct (fe_normalize_weak_ok _ (mag_weaken m 32 _ B ltac:(lia))) as (N2 & V2).
  split; [exact N1|]. split; [exact N2|]. rewrite V2, <- E. symmetry. exact (toF_k _ _ _ V1).
Qed.
Lemma rf_equal m a b c d : rf 1 a b -> rf m c d -> 0 <= m <= 29 -> f26_equal a c = fe_equal b d.
Proof.
  intros (A & B & E) (C & D & G) Hm. apply eq_true_iff_eq.
  rewrite (f26_equal_spec m _ _ A C Hm), (fe_equal_spec m _ _ B D ltac:(lia)), E, G. reflexivity.
Qed.
Lemma rt_is_odd a b : rt a b -> f26_is_odd a = fe_is_odd b.
Proof. intros (_ & _ & E). rewrite f26_is_odd_ok, fe_is_odd_val, E. reflexivity. Qed.
Lemma rt_is_zero a b : rt a b -> f26_is_zero a = fe_is_zero b.
Proof. intros (A & B & E). rewrite (f26_is_zero_tight _ A), (fe_is_zero_tight _ B), E. reflexivity. Qed.
Lemma rn_is_odd a b : rn a b -> f26_is_odd a = fe_is_odd b.
Proof. intros H. exact (rt_is_odd _ _ (rn_rt _ _ H)). Qed.
Lemma rn_is_zero a b : rn a b -> f26_is_zero a = fe_is_zero b.
Proof. intros H. exact (rt_is_zero _ _ (rn_rt _ _ H)). Qed.
Lemma rn_cmp_var a b c d : rn a b -> rn c d -> f26_cmp_var a c = fe_cmp_var b d.
Proof. intros (A & B & E) (C & D & G). rewrite (f26_cmp_var_ok _ _ A C), (fe_cmp_var_spec _ _ B D), E, G. reflexivity. Qed.
Lemma rt_get_b32 a b : rt a b -> f26_get_b32 a = fe_get_b32 b.
Proof. intros (A & B & E). rewrite (f26_get_b32_tight _ A), (fe_get_b32_tight _ B), E. reflexivity. Qed.
Lemma rn_get_b32 a b : rn a b -> f26_get_b32 a = fe_get_b32 b.
Proof. intros H. exact (rt_get_b32 _ _ (rn_rt _ _ H)). Qed.
Lemma rt_set_b32_mod l : byte_list l -> length l = 32%nat -> rt (f26_set_b32_mod l) (fe_set_b32_mod l).
Proof.
  intros B L. destruct (f26_set_b32_mod_ok l B L) as (V1 & T1). destruct (fe_set_b32_mod_ok l B L) as (V2 & T2).
  split; [exact T1|]. split; [exact T2|]. rewrite V1, V2. reflexivity.
Qed.
Lemma rt_set_b32_limit l : byte_list l -> length l = 32%nat ->
  fst (f26_set_b32_limit l) = fst (fe_set_b32_limit l) /\ rt (snd (f26_set_b32_limit l)) (snd (fe_set_b32_limit l)) /\
  (fst (fe_set_b32_limit l) = true -> rn (snd (f26_set_b32_limit l)) (snd (fe_set_b32_limit l))).
Proof.
  intros B L. destruct (f26_set_b32_limit_ok l B L) as (F1 & S1). destruct (fe_set_b32_limit_ok l B L) as (F2 & S2).
  split; [rewrite F1, F2; reflexivity|]. rewrite S1, S2. split; [exact (rt_set_b32_mod l B L)|].
  intros T. pose proof (fe_set_b32_limit_norm l B L T) as (N & _). rewrite S2 in N.
  rewrite F2 in T. apply Z.ltb_lt in T.
  split; [exact (f26_set_b32_norm l B L T)|]. split; [exact N|].
  rewrite (proj1 (f26_set_b32_mod_ok l B L)), (proj1 (fe_set_b32_mod_ok l B L)). reflexivity.
Qed.
Lemma rf_sqrt m a b : rf m a b -> m <= 8 -> fst (f26_sqrt a) = fst (fe_sqrt b) /\ rf 1 (snd (f26_sqrt a)) (snd (fe_sqrt b)).
Proof.
  intros H Hm. pose proof (rf_weaken m 8 _ _ H Hm) as (A & B & E).
  destruct (f26_sqrt_chain a _ eq_refl A) as (M1 & V1 & Q1). destruct (fe_sqrt_chain b _ eq_refl B) as (M2 & V2 & Q2).
  assert (R : rf 1 (snd (f26_sqrt a)) (snd (fe_sqrt b))).
  { split; [exact M1|]. split; [exact M2|]. rewrite V1, V2. apply pow_toF; [apply Z.div_pos; vm_compute; congruence|exact E]. }
  split; [|exact R]. rewrite Q1, Q2. apply (rf_equal 8); [apply (rf_sqr 1); [exact R|lia]|split; [exact A|split; [exact B|exact E]]|lia].
Qed.
Lemma rf_res m a b : rf m a b -> fe_res b = fe26_res a.
Proof.
  intros H. unfold fe_res, fe26_res. rewrite fe26_int_eq, (rf_mod m a b H). f_equal. unfold fe_int, fval. ring.
Qed.
Lemma rf_is_square m a b : rf m a b -> m <= 31 -> f26_is_square_w32 a = fe_is_square_var b.
Proof.
  intros H Hm. pose proof (rf_mod m a b H) as V. destruct H as (A & B & _).
  destruct (square32_ok 50 a ltac:(vm_compute; discriminate) (f26_mag_weaken m 31 _ A Hm)) as (s & E & S).
  unfold f26_is_square_w32. rewrite E. apply eq_true_iff_eq. rewrite S, (fe_is_square_var_spec _ (mag_weaken m 32 _ B ltac:(lia))).
  unfold fe26_res. rewrite fe26_int_eq, V. unfold is_square_mod_p. reflexivity.
Qed.
(** ** Inverses, constants, storage *)
Lemma norm_range26 a : f26_norm a -> 0 <= f26val a < p.
Proof. exact (f26val_norm_range a). Qed.
Lemma rn_of_fv a b : f26_norm a -> fe_norm b -> fv26 a = fv b -> rn a b.
Proof.
  intros A B E. split; [exact A|]. split; [exact B|]. pose proof (toF_inj _ _ E) as M.
  rewrite Z.mod_small, Z.mod_small in M; [exact M|exact (fval_norm_range _ B)|exact (f26val_norm_range _ A)].
Qed.
Lemma finv_unique (x y : F) : (x * y)%F = f1 -> y = finv x.
Proof.
  intros H. assert (N : x <> f0). { intros ->. apply f1_nz. rewrite <- H. ring. }
  transitivity ((x * y) * finv x)%F; [field; exact N|]. rewrite H. ring.
Qed.
Lemma inv26_fv x r : magnitude26 31 x -> f26_inv x = Some r -> f26_norm r /\ fv26 r = finv (fv26 x).
Proof.
  intros Hx E. destruct (prop30_field x Hx) as (r' & E' & N & Z0 & Z1 & _). rewrite E in E'. injection E' as <-.
  split; [exact (proj1 (norm26_iff _) N)|]. unfold fe26_res in Z0, Z1. rewrite !fe26_int_eq in Z0, Z1. unfold fv26.
  destruct (Z.eq_dec (f26val x mod p) 0) as [D|D].
  - rewrite (Z0 D), (proj2 (toF_0_iff _) D), finv_0. reflexivity.
  - apply finv_unique. rewrite <- toF_mul, <- toF_one. apply toF_eq. rewrite (Z1 D). reflexivity.
Qed.
Lemma rn_inv m a b : rf m a b -> m <= 31 -> rn (f26_inv_w32 a) (fe_inv b).
Proof.
  intros (A & B & E) Hm. pose proof (f26_mag_weaken m 31 _ A Hm) as A'.
  destruct (prop30_field a A') as (r & Er & _). unfold f26_inv_w32. rewrite Er.
  destruct (inv26_fv a r A' Er) as (N & V). apply rn_of_fv; [exact N|apply fe_inv_norm|].
  rewrite V, (fe_inv_fv b (mag_weaken m 32 _ B ltac:(lia))), E. reflexivity.
Qed.
Lemma rn_inv_var m a b : rf m a b -> m <= 31 -> rn (f26_inv_var_w32 a) (fe_inv_var b).
Proof.
  intros (A & B & E) Hm. pose proof (f26_mag_weaken m 31 _ A Hm) as A'.
  destruct (prop30_field a A') as (r & Er & _ & _ & _ & Ev & _). unfold f26_inv_var_w32. rewrite (Ev 25%nat (le_n _)).
  destruct (inv26_fv a r A' Er) as (N & V). rewrite (fe_inv_var_eq b (mag_weaken m 32 _ B ltac:(lia))). apply rn_of_fv; [exact N|apply fe_inv_norm|].
  rewrite V, (fe_inv_fv b (mag_weaken m 32 _ B ltac:(lia))), E. reflexivity.
Qed.
Lemma rn_set_int k : 0 <= k <= 0x7FFF -> rn (f26_set_int k) (fe_set_int k).
Proof.
  intros H. destruct (f26_set_int_ok k H) as (A & V). destruct (fe_set_int_ok k H) as (B & W).
  split; [exact A|]. split; [exact B|]. rewrite V, W. reflexivity.
Qed.
Definition f26_norm_b (r : fe26) : bool :=
  (0 <=? m0 r) && (m0 r <=? M26) && (0 <=? m1 r) && (m1 r <=? M26) && (0 <=? m2 r) && (m2 r <=? M26) && (0 <=? m3 r) && (m3 r <=? M26) &&
  (0 <=? m4 r) && (m4 r <=? M26) && (0 <=? m5 r) && (m5 r <=? M26) && (0 <=? m6 r) && (m6 r <=? M26) && (0 <=? m7 r) && (m7 r <=? M26) &&
  (0 <=? m8 r) && (m8 r <=? M26) && (0 <=? m9 r) && (m9 r <=? M22) && (f26val r <? p).
Lemma f26_norm_b_ok r : f26_norm_b r = true -> f26_norm r.
Proof.
  unfold f26_norm_b, f26_norm. rewrite !andb_true_iff, !Z.leb_le, Z.ltb_lt. tauto.
Qed.
Lemma rn_of_Z v : (0 <=? v) && (v <? p) && f26_norm_b (f26_of_Z v) && (f26val (f26_of_Z v) =? v) = true -> rn (f26_of_Z v) (fe_of_Z v).
Proof.
  rewrite !andb_true_iff, Z.leb_le, Z.ltb_lt, Z.eqb_eq. intros (((H1 & H2) & H3) & H4).
  destruct (fe_of_Z_ok v (conj H1 H2)) as (B & W).
  split; [exact (f26_norm_b_ok _ H3)|]. split; [exact B|]. rewrite H4, W. reflexivity.
Qed.
Lemma rn_one : rn f26_one fe_one.
Proof. apply (rn_of_Z 1). vm_compute. reflexivity. Qed.
Lemma rn_beta : rn const_beta_w32 const_beta.
Proof. apply (rn_of_Z 0x7ae96a2b657c07106e64479eac3434e99cf0497512f58995c1396c28719501ee). vm_compute. reflexivity. Qed.

Definition rs (a : fes26) (b : fe_storage) : Prop := s26_ok a /\ fes_ok b /\ s26val a = sval b.
Lemma rs_to a b : rn a b -> rs (f26_to_storage a) (fe_to_storage b).
Proof.
  intros (A & B & E). destruct (f26_to_storage_ok _ A) as (O1 & V1). destruct (fe_to_storage_ok _ B) as (O2 & V2).
  split; [exact O1|]. split; [exact O2|]. rewrite V1, V2. exact E.
Qed.
Lemma rt_from a b : rs a b -> rt (f26_from_storage a) (fe_from_storage b).
Proof.
  intros (A & B & E). split; [exact (f26_from_storage_tight _ A)|]. split; [exact (fe_from_storage_tight _ B)|].
  rewrite (proj1 (f26_from_storage_ok _ A)), (proj1 (fe_from_storage_ok _ B)). exact E.
Qed.
Lemma rs_cmov a b c d flag : rs a b -> rs c d -> flag = 0 \/ flag = 1 -> rs (f26_storage_cmov a c flag) (fe_storage_cmov b d flag).
Proof.
  intros (A & B & E) (C & D & G) Hf.
  rewrite (f26_storage_cmov_ok _ _ _ A C Hf), (fe_storage_cmov_ok _ _ _ B D Hf).
  destruct (flag =? 0); [split; [exact A|]; split; [exact B|exact E]|split; [exact C|]; split; [exact D|exact G]].
Qed.
