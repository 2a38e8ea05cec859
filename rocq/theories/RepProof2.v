(** Multiplication and hashing, read through the vocabulary of SpecRep and SpecHash. *)
Require Import ZArith List Bool Lia Ring Field.
From Verif Require Import Word Bytes Spec SpecApi SpecHash ZmField Primes Curve FieldModel FieldMul FieldProof FieldProof2 FieldBytes FieldOps
  ScalarModel ScalarProof ScalarProof2 GroupModel GroupProof GroupProof2 GroupProof3 GroupProof4 Endo HashModel HashProof GenModel GenProof
  EcmultModel WnafProof EcmultProof EcmultProof2 EcmultConst ApiModel ApiVocab KeyProps KeyProps2 SpecRep RepProof.
Import ListNotations.
Local Open Scope Z_scope.

Lemma opt_valid_iff o : opt_valid o <-> opt_ok o. Proof. destruct o; [apply valid_iff|reflexivity]. Qed.
Lemma opt_int_eq o : opt_int o = opt_sv o. Proof. destruct o; [apply scalar_int_eq|reflexivity]. Qed.

Lemma prop_ecmult a na ng P : jacobian_point a P -> scalar_valid na -> opt_valid ng ->
  jacobian_point (ecmult a na ng) (padd (pmul (scalar_int na) P) (pmul (opt_int ng) G)).
Proof. rewrite !jac_iff, valid_iff, opt_valid_iff, scalar_int_eq, opt_int_eq. apply ecmult_ok. Qed.

Lemma terms_K l m : Forall2 term_of l m ->
  exists kvs, Forall2 (fun an kv => gej_rep f1 (fst an) (K (fst kv)) /\ sc_ok (snd an) /\ sv (snd an) = snd kv) l kvs /\ lin_comb m = K (lin kvs).
Proof.
  intro H. induction H as [|an [k P] l m (A & B & C) H (kvs & F & E)].
  - exists []. split; [constructor|]. reflexivity.
  - cbn [fst snd] in *. rewrite jac_iff in A. rewrite valid_iff in B. rewrite scalar_int_eq in C.
    destruct (all_points_multiples_of_G P) as (j & _ & EP); [apply A|]. exists ((j, k) :: kvs). split.
    + constructor; [|exact F]. cbn [fst snd]. rewrite <- EP. tauto.
    + unfold lin_comb, psum in *. cbn [map fold_right fst snd lin] in *. rewrite E, EP, K_mul, K_add. reflexivity.
Qed.
Lemma prop_strauss l m ng : Forall2 term_of l m -> opt_valid ng ->
  jacobian_point (ecmult_strauss_wnaf l ng) (padd (lin_comb m) (pmul (opt_int ng) G)).
Proof.
  rewrite jac_iff, opt_valid_iff, opt_int_eq. intros H O. destruct (terms_K l m H) as (kvs & F & ->). rewrite K_add.
  now apply ecmult_strauss_wnaf_ok.
Qed.
Lemma prop_ecmult_const a q P : affine_point a P -> scalar_valid q -> jacobian_point (ecmult_const a q) (pmul (scalar_int q) P).
Proof. rewrite jac_iff, aff_iff, valid_iff, scalar_int_eq. apply ecmult_const_ok, f1_nz. Qed.
Lemma prop_ecmult_gen ctx q : usable_context ctx -> scalar_valid q -> jacobian_point (ecmult_gen (c_gen ctx) q) (pmul (scalar_int q) G).
Proof. rewrite jac_iff, valid_iff, scalar_int_eq. intros U Q. apply ecmult_gen_ok; [apply (usable_ctx ctx U)|exact Q]. Qed.

Lemma prop_ecmult_const_xonly nn d q koc x : magnitude 8 nn -> (forall d', d = Some d' -> magnitude 8 d') -> opt_den d mod p <> 0 ->
  scalar_valid q -> scalar_int q <> 0 -> 0 <= x < p -> (x * opt_den d) mod p = fe_res nn ->
  (koc = true -> is_square_mod_p (x ^ 3 + 7)) ->
  match ecmult_const_xonly nn d q koc with
  | None => ~ is_square_mod_p (x ^ 3 + 7)
  | Some r => is_square_mod_p (x ^ 3 + 7) /\ magnitude 1 r /\
      forall y, on_curve (Aff x y) -> fe_res r = xcoord (pmul (scalar_int q) (Aff x y))
  end.
Proof.
  intros Mn Md Nd Q Nq Rx Ex Hk. rewrite valid_iff in Q. rewrite scalar_int_eq in Nq |- *.
  assert (X3 : x ^ 3 = x * x * x) by ring. rewrite X3 in *. clear X3.
  assert (ED : xden d = toF (opt_den d)) by (destruct d; [cbn; rewrite fe_int_eq; reflexivity|symmetry; exact toF_one]).
  assert (ND : xden d <> f0) by (rewrite ED; now apply toF_nz).
  assert (EX : zv (fv nn / xden d)%F = x).
  { rewrite <- (Z.mod_small x p) by exact Rx. rewrite <- zv_toF. f_equal.
    apply (f_equal toF) in Ex. rewrite toF_mod, toF_mul, toF_res, <- ED in Ex. rewrite <- Ex. field. exact ND. }
  pose proof (ecmult_const_xonly_ok nn d q koc Mn) as T. cbv zeta in T. rewrite EX in T.
  assert (HD : match d with Some d0 => fe_mag 8 d0 /\ fv d0 <> f0 | None => True end).
  { destruct d as [d0|]; [|exact I]. split; [exact (Md d0 eq_refl)|exact ND]. }
  specialize (T HD Q Nq Hk). destruct (ecmult_const_xonly nn d q koc) as [r|]; [|exact T].
  destruct T as (T1 & T2 & T3). split; [exact T1|split; [exact T2|]]. intros y OC.
  rewrite (res_eq _ _ (T3 y OC)). apply Z.mod_small.
  pose proof (on_curve_mul (sv q) (Aff x y) OC) as OM. destruct (pmul (sv q) (Aff x y)) as [|x' y']; [split; [discriminate|reflexivity]|].
  cbn in OM |- *. apply OM.
Qed.

(** ** Hashing *)
Lemma prop_sha chunks : Forall byte_list chunks -> Z.of_nat (length (concat chunks)) < 2 ^ 61 ->
  sha256_finalize (fold_left sha256_write chunks sha256_initialize) = SHA256 (concat chunks).
Proof. intros H L. apply finalize_ok; [|exact L]. exact (writes_at chunks _ [] initialize_at H). Qed.
Lemma prop_tagged tag msg buf : byte_list tag -> byte_list msg -> Z.of_nat (length tag) < 2 ^ 61 -> Z.of_nat (length msg) < 2 ^ 61 - 64 ->
  api_tagged_sha256 (Some buf) (Some tag) (Some msg) = mkres 1 0 (Some (SHA256 (SHA256 tag ++ SHA256 tag ++ msg))).
Proof.
  intros BT BM LT LM. unfold api_tagged_sha256. f_equal. f_equal. rewrite app_assoc. apply finalize_ok.
  - apply write_at; [now apply tagged_at|exact BM].
  - rewrite !app_length, !SHA256_length. lia.
Qed.
Lemma hmac_writes_at chunks : forall h key m, hmac_at h key m -> Forall byte_list chunks -> hmac_at (fold_left hmac_write chunks h) key (m ++ concat chunks).
Proof.
  induction chunks as [|c chunks IH]; intros h key m H F; cbn [fold_left concat].
  - now rewrite app_nil_r.
  - inversion F; subst. rewrite app_assoc. apply IH; [now apply hmac_write_at|assumption].
Qed.
Lemma prop_hmac key chunks : byte_list key -> Z.of_nat (length key) < 2 ^ 61 -> Forall byte_list chunks -> Z.of_nat (length (concat chunks)) < 2 ^ 61 - 64 ->
  hmac_finalize (fold_left hmac_write chunks (hmac_initialize key)) = HMAC key (concat chunks).
Proof. intros BK LK H L. apply hmac_finalize_ok; [|exact L]. exact (hmac_writes_at chunks _ key [] (hmac_init_at key BK LK) H). Qed.
Lemma prop_rng seed k : byte_list seed -> Z.of_nat (length seed) < 2 ^ 60 ->
  snd (rng_nth k (rfc6979_initialize seed)) = RFC6979 k seed.
Proof. intros B L. apply (rng_nth_ok seed k B L). Qed.
Lemma prop_nonce msg key algo data c : bytes_n 32 msg -> bytes_n 32 key -> opt_bytes 16 algo -> opt_bytes 32 data -> 0 <= c < 2 ^ 32 - 1 ->
  nonce_function_rfc6979 msg key algo data c = Some (RFC6979 (Z.to_nat c) (key ++ be_bytes 32 (be_val msg mod n) ++ opt_cat data ++ opt_cat algo)).
Proof. intros A B C D _. exact (proj1 (nonce_rfc6979_ok msg key algo data c A B C D)). Qed.

(** ** Concrete objects for the examples *)
Definition big_fe : fe := mkfe (16 * (2 ^ 52 - 1)) (16 * (2 ^ 52 - 1)) (16 * (2 ^ 52 - 1)) (16 * (2 ^ 52 - 1)) (16 * (2 ^ 48 - 1)).
Lemma big_fe_mag : magnitude 8 big_fe /\ ~ normalized big_fe.
Proof. unfold magnitude, normalized, big_fe. cbn [n0 n1 n2 n3 n4]. lia. Qed.
Lemma p1_norm : normalized (mkfe 0xFFFFEFFFFFC2E (2 ^ 52 - 1) (2 ^ 52 - 1) (2 ^ 52 - 1) (2 ^ 48 - 1)).
Proof. unfold normalized, fe_int. cbn [n0 n1 n2 n3 n4]. repeat split; discriminate || reflexivity. Qed.
Lemma big_sc : scalar_valid (mksc (N_0 - 1) N_1 N_2 N_3) /\ scalar_int (mksc (N_0 - 1) N_1 N_2 N_3) = n - 1.
Proof. unfold scalar_valid, scalar_words, scalar_int. cbn [d0 d1 d2 d3]. repeat split; discriminate || reflexivity. Qed.
Lemma g_affine : affine_point ge_const_g G. Proof. apply aff_iff, ge_const_g_ok. Qed.
Lemma g_jacobian : jacobian_point (gej_set_ge ge_const_g) G. Proof. apply prop_set_ge, g_affine. Qed.
(** Opposite points and infinity also have representatives. *)
Lemma g_opposite : jacobian_point (gej_neg (gej_set_ge ge_const_g)) (pneg G) /\ jacobian_point gej_infinity Inf.
Proof. split; [apply (prop_neg _ ge_const_g G), g_jacobian|]. unfold jacobian_point, magnitude. cbn. lia. Qed.
