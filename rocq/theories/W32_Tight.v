(** The field of the 32-bit build next to that of the 64-bit build: the same numbers. *)
Require Import ZArith List Bool Lia.
From Verif Require Import Word Word32 Bytes Spec ZmField Primes Curve FieldModel FieldMul FieldProof FieldProof2 FieldBytes FieldOps
  Field32Model Field32Mul Field32Proof Field32Ops Field32Bytes SpecRep SpecRep32 Field32Props Modinv32Model Modinv32Props W32_Base.
Import ListNotations.
Local Open Scope Z_scope.

Definition tight64 (a : fe) : Prop :=
  0 <= n0 a <= M52 /\ 0 <= n1 a <= M52 /\ 0 <= n2 a <= M52 /\ 0 <= n3 a <= M52 /\ 0 <= n4 a <= M48.
Definition tight32 (r : fe26) : Prop :=
  0 <= m0 r <= M26 /\ 0 <= m1 r <= M26 /\ 0 <= m2 r <= M26 /\ 0 <= m3 r <= M26 /\ 0 <= m4 r <= M26 /\ 0 <= m5 r <= M26 /\ 0 <= m6 r <= M26 /\ 0 <= m7 r <= M26 /\ 0 <= m8 r <= M26 /\ 0 <= m9 r <= M22.
Lemma fe_get_b32_tight a : tight64 a -> fe_get_b32 a = be_bytes 32 (fval a).
Proof.
  intros (H0 & H1 & H2 & H3 & H4). unfold fe_get_b32.
  destruct (split_limb0 (n0 a) H0) as (a0 & a1 & a2 & a3 & a4 & a5 & a6 & A0 & A1 & A2 & A3 & A4 & A5 & A6 & EA & -> & -> & -> & -> & -> & -> & ->).
  destruct (split_limb1 (n1 a) H1) as (b0 & b1 & b2 & b3 & b4 & b5 & b6 & B0 & B1 & B2 & B3 & B4 & B5 & B6 & EB & -> & -> & -> & -> & -> & -> & ->).
  destruct (split_limb0 (n2 a) H2) as (c0 & c1 & c2 & c3 & c4 & c5 & c6 & C0 & C1 & C2 & C3 & C4 & C5 & C6 & EC & -> & -> & -> & -> & -> & -> & ->).
  destruct (split_limb1 (n3 a) H3) as (d0 & d1 & d2 & d3 & d4 & d5 & d6 & D0 & D1 & D2 & D3 & D4 & D5 & D6 & ED & -> & -> & -> & -> & -> & -> & ->).
  assert (H4' : 0 <= n4 a <= M52) by (clear -H4; fconst; lia).
  destruct (split_limb0 (n4 a) H4') as (e0 & e1 & e2 & e3 & e4 & e5 & e6 & E0 & E1 & E2 & E3 & E4 & E5 & E6 & EE & -> & -> & -> & -> & -> & -> & _).
  assert (e6 = 0). { unfold hlimb0, isb in *. clear -EE H4 E0 E1 E2 E3 E4 E5 E6. fconst. lia. } subst e6.
  destruct (nib_join a6 b0 A6 B0) as [-> F1]. destruct (nib_join c6 d0 C6 D0) as [-> F2].
  apply be_bytes_unique; [reflexivity| |].
  - repeat (apply Forall_cons; [assumption|]). apply Forall_nil.
  - unfold fval. rewrite EA, EB, EC, ED, EE. unfold be_val, hlimb0, hlimb1. cbn [be_val_acc]. ring.
Qed.
Lemma f26_get_b32_tight a : tight32 a -> f26_get_b32 a = be_bytes 32 (f26val a).
Proof.
  intros (H0 & H1 & H2 & H3 & H4 & H5 & H6 & H7 & H8 & H9). unfold f26_get_b32. f26const.
  assert (H9' : 0 <= m9 a <= 67108863) by (clear -H9; lia).
  destruct (parts0 (m0 a) H0) as (u00 & u01 & u02 & u03 & E0 & B00 & B01 & B02 & B03 & -> & -> & -> & ->).
  destruct (parts1 (m1 a) H1) as (u10 & u11 & u12 & u13 & E1 & B10 & B11 & B12 & B13 & -> & -> & -> & ->).
  destruct (parts2 (m2 a) H2) as (u20 & u21 & u22 & u23 & E2 & B20 & B21 & B22 & B23 & -> & -> & -> & ->).
  destruct (parts3 (m3 a) H3) as (u30 & u31 & u32 & u33 & E3 & B30 & B31 & B32 & B33 & -> & -> & -> & ->).
  destruct (parts0 (m4 a) H4) as (u40 & u41 & u42 & u43 & E4 & B40 & B41 & B42 & B43 & -> & -> & -> & ->).
  destruct (parts1 (m5 a) H5) as (u50 & u51 & u52 & u53 & E5 & B50 & B51 & B52 & B53 & -> & -> & -> & ->).
  destruct (parts2 (m6 a) H6) as (u60 & u61 & u62 & u63 & E6 & B60 & B61 & B62 & B63 & -> & -> & -> & ->).
  destruct (parts3 (m7 a) H7) as (u70 & u71 & u72 & u73 & E7 & B70 & B71 & B72 & B73 & -> & -> & -> & ->).
  destruct (parts0 (m8 a) H8) as (u80 & u81 & u82 & u83 & E8 & B80 & B81 & B82 & B83 & -> & -> & -> & ->).
  destruct (parts1 (m9 a) H9') as (u90 & u91 & u92 & u93 & E9 & B90 & B91 & B92 & B93 & -> & -> & -> & _).
  assert (Z93 : u93 = 0) by (clear -E9 H9 B90 B91 B92 B93; change (2 ^ 6) with 64 in *; change (2 ^ 14) with 16384 in *; change (2 ^ 22) with 4194304 in *; lia).
  destruct (join_bits u03 u10 2 _ _ B03 B10 eq_refl) as [-> J1].
  destruct (join_bits u13 u20 4 _ _ B13 B20 eq_refl) as [-> J2].
  destruct (join_bits u23 u30 6 _ _ B23 B30 eq_refl) as [-> J3].
  destruct (join_bits u43 u50 2 _ _ B43 B50 eq_refl) as [-> J5].
  destruct (join_bits u53 u60 4 _ _ B53 B60 eq_refl) as [-> J6].
  destruct (join_bits u63 u70 6 _ _ B63 B70 eq_refl) as [-> J7].
  destruct (join_bits u83 u90 2 _ _ B83 B90 eq_refl) as [-> J9].
  apply be_bytes_unique; [reflexivity| |].
  - repeat (apply Forall_cons; [first [assumption|unfold isb; lia]|]). apply Forall_nil.
  - unfold f26val, val26. rewrite E0, E1, E2, E3, E4, E5, E6, E7, E8, E9, Z93. unfold be_val. cbn [be_val_acc]. ring.
Qed.
Lemma fe_from_storage_tight s : fes_ok s -> tight64 (fe_from_storage s).
Proof.
  intros (H0 & H1 & H2 & H3). unfold fe_from_storage.
  rewrite (from_limb _ _ 12 40), (from_limb _ _ 24 28), (from_limb _ _ 36 16); try lia.
  2,3,4: rewrite shiftr_div by lia; split; [apply Z.div_pos; lia|apply Z.div_lt_upper_bound; [lia|fconst; lia]].
  rewrite !shiftr_div by lia. change (Z.land (s0 s) M52) with (Z.land (s0 s) (2 ^ 52 - 1)). rewrite !land_ones_mod by lia.
  pose proof (Z.div_mod (s0 s) (2 ^ 52) ltac:(discriminate)). pose proof (Z.mod_pos_bound (s0 s) (2 ^ 52) eq_refl).
  pose proof (Z.div_mod (s1 s) (2 ^ 40) ltac:(discriminate)). pose proof (Z.mod_pos_bound (s1 s) (2 ^ 40) eq_refl).
  pose proof (Z.div_mod (s2 s) (2 ^ 28) ltac:(discriminate)). pose proof (Z.mod_pos_bound (s2 s) (2 ^ 28) eq_refl).
  pose proof (Z.div_mod (s3 s) (2 ^ 16) ltac:(discriminate)). pose proof (Z.mod_pos_bound (s3 s) (2 ^ 16) eq_refl).
  set (u0 := s0 s / _) in *. set (v0 := s0 s mod _) in *. set (u1 := s1 s / _) in *. set (v1 := s1 s mod _) in *.
  set (u2 := s2 s / _) in *. set (v2 := s2 s mod _) in *. set (u3 := s3 s / _) in *. set (v3 := s3 s mod _) in *.
  clearbody u0 v0 u1 v1 u2 v2 u3 v3.
  unfold tight64. cbn [n0 n1 n2 n3 n4].
  assert (B0 : 0 <= v0 <= M52) by (fconst; lia).
  assert (B1 : 0 <= u0 + v1 * 2 ^ 12 <= M52) by (clear -H0 H H4 H6; fconst; lia).
  assert (B2 : 0 <= u1 + v2 * 2 ^ 24 <= M52) by (clear -H1 H5 H6 H8; fconst; lia).
  assert (B3 : 0 <= u2 + v3 * 2 ^ 36 <= M52) by (clear -H2 H7 H8 H10; fconst; lia).
  assert (B4 : 0 <= u3 <= M48) by (clear -H3 H9 H10; fconst; lia).
  repeat (split; [assumption|]). assumption.
Qed.
Lemma f26_from_storage_tight s : s26_ok s -> tight32 (f26_from_storage s).
Proof.
  intros (H0 & H1 & H2 & H3 & H4 & H5 & H6 & H7).
  assert (Bq0 : 0 <= q0 s <= 4294967295) by (clear -H0; change (2 ^ 32) with 4294967296 in *; lia). clear H0. assert (Bq1 : 0 <= q1 s <= 4294967295) by (clear -H1; change (2 ^ 32) with 4294967296 in *; lia). clear H1. assert (Bq2 : 0 <= q2 s <= 4294967295) by (clear -H2; change (2 ^ 32) with 4294967296 in *; lia). clear H2. assert (Bq3 : 0 <= q3 s <= 4294967295) by (clear -H3; change (2 ^ 32) with 4294967296 in *; lia). clear H3. assert (Bq4 : 0 <= q4 s <= 4294967295) by (clear -H4; change (2 ^ 32) with 4294967296 in *; lia). clear H4. assert (Bq5 : 0 <= q5 s <= 4294967295) by (clear -H5; change (2 ^ 32) with 4294967296 in *; lia). clear H5. assert (Bq6 : 0 <= q6 s <= 4294967295) by (clear -H6; change (2 ^ 32) with 4294967296 in *; lia). clear H6. assert (Bq7 : 0 <= q7 s <= 4294967295) by (clear -H7; change (2 ^ 32) with 4294967296 in *; lia). clear H7.
  assert (X : 0 <= m0 (f26_from_storage s) <= M26 /\ 0 <= m1 (f26_from_storage s) <= M26 /\ 0 <= m2 (f26_from_storage s) <= M26 /\ 0 <= m3 (f26_from_storage s) <= M26 /\ 0 <= m4 (f26_from_storage s) <= M26 /\ 0 <= m5 (f26_from_storage s) <= M26 /\ 0 <= m6 (f26_from_storage s) <= M26 /\ 0 <= m7 (f26_from_storage s) <= M26 /\ 0 <= m8 (f26_from_storage s) <= M26 /\ 0 <= m9 (f26_from_storage s) <= M22).
  { destruct (f26_from_storage s) as [y0 y1 y2 y3 y4 y5 y6 y7 y8 y9] eqn:E. unfold f26_from_storage in E.
    pose proof (f_equal m0 E) as Y0. cbn [m0] in Y0. symmetry in Y0. ib_step Y0. pose proof (f_equal m1 E) as Y1. cbn [m1] in Y1. symmetry in Y1. ib_step Y1. pose proof (f_equal m2 E) as Y2. cbn [m2] in Y2. symmetry in Y2. ib_step Y2. pose proof (f_equal m3 E) as Y3. cbn [m3] in Y3. symmetry in Y3. ib_step Y3. pose proof (f_equal m4 E) as Y4. cbn [m4] in Y4. symmetry in Y4. ib_step Y4. pose proof (f_equal m5 E) as Y5. cbn [m5] in Y5. symmetry in Y5. ib_step Y5. pose proof (f_equal m6 E) as Y6. cbn [m6] in Y6. symmetry in Y6. ib_step Y6. pose proof (f_equal m7 E) as Y7. cbn [m7] in Y7. symmetry in Y7. ib_step Y7. pose proof (f_equal m8 E) as Y8. cbn [m8] in Y8. symmetry in Y8. ib_step Y8. pose proof (f_equal m9 E) as Y9. cbn [m9] in Y9. symmetry in Y9. ib_step Y9. clear E.
    cbn [m0 m1 m2 m3 m4 m5 m6 m7 m8 m9]. f26const; split; [exact By0|]; split; [exact By1|]; split; [exact By2|]; split; [exact By3|]; split; [exact By4|]; split; [exact By5|]; split; [exact By6|]; split; [exact By7|]; split; [exact By8|]; exact By9. }
  exact X.
Qed.
Lemma fe_is_zero_tight a : tight64 a -> fe_is_zero a = (fval a =? 0).
Proof.
  intros (H0 & H1 & H2 & H3 & H4). unfold fe_is_zero, fval. apply eq_true_iff_eq. rewrite !Z.eqb_eq, !Z.lor_eq_0_iff. lia.
Qed.
Lemma f26_is_zero_tight a : tight32 a -> f26_is_zero a = (f26val a =? 0).
Proof.
  intros (H0 & H1 & H2 & H3 & H4 & H5 & H6 & H7 & H8 & H9). unfold f26_is_zero, f26val, val26. apply eq_true_iff_eq. rewrite !Z.eqb_eq, !Z.lor_eq_0_iff. lia.
Qed.
Lemma fe_is_odd_val a : fe_is_odd a = Z.odd (fval a).
Proof.
  unfold fe_is_odd, fval. rewrite !Z.odd_add, !Z.odd_mul.
  change (Z.odd (2 ^ 52)) with false. change (Z.odd (2 ^ 104)) with false.
  change (Z.odd (2 ^ 156)) with false. change (Z.odd (2 ^ 208)) with false.
  rewrite !andb_false_r, !xorb_false_r.
  change 1 with (2 ^ 1 - 1). rewrite land_ones_mod by lia. change (2 ^ 1) with 2. rewrite Zmod_odd.
  destruct (Z.odd (n0 a)); reflexivity.
Qed.
Lemma norm_tight a : fe_norm a -> tight64 a. Proof. unfold fe_norm, tight64. tauto. Qed.
Lemma norm26_tight a : f26_norm a -> tight32 a. Proof. unfold f26_norm, tight32. tauto. Qed.
Lemma tight_mag a : tight64 a -> fe_mag 1 a.
Proof. unfold tight64, fe_mag. fconst. lia. Qed.
Lemma tight26_mag a : tight32 a -> f26_mag 1 a.
Proof. unfold tight32, f26_mag. f26const. lia. Qed.
