(** Property lemmas for ElligatorSwift. *)
Require Import ZArith List Bool Lia Field String.
From Verif Require Import NumTheory Spec SpecApi SpecHash SpecEllswift SpecBip340 Primes ZmField Curve NField Word Bytes.
From Verif Require Import FieldModel FieldMul FieldProof FieldProof2 FieldBytes FieldOps.
From Verif Require Import ScalarModel ScalarProof ScalarProof2 ScalarMul.
From Verif Require Import GroupModel GroupProof GroupProof2 GroupProof3 GroupProof4 GroupProof5.
From Verif Require Import HashModel HashProof GenModel GenProof EcmultModel EcmultProof EcmultProof2 EcmultConst EcdsaModel ApiModel ApiVocab ApiProof ApiProof2 ApiProof3 EcdsaProof EcdsaProof2 KeyProps KeyProps2.
From Verif Require Import ExtrakeysProof SchnorrModel SchnorrProof EllswiftModel EllswiftAlg EllswiftProof EllswiftInv EllswiftProof2.
Import ListNotations.
Local Open Scope Z_scope.
Local Opaque p n SHA256 tagged_hash be_bytes.
Local Notation length := List.length.

(** ** x-only ECDH *)
Lemma prop_xdh_exact out ella ellb key party hf Q ret out' : bytes_n 64 ella -> bytes_n 64 ellb -> bytes_n 32 key -> 1 <= be_val key < n ->
  ell_point (if party =? 0 then ellb else ella) Q ->
  hf out (be_bytes 32 (xcoord (pmul (be_val key) Q))) ella ellb = (ret, out') ->
  ellswift_xdh (Some out) (Some ella) (Some ellb) (Some key) party (Some hf) = mkres (if ret =? 0 then 0 else 1) 0 (Some out').
Proof.
  intros BA BB BK RK EQ EH. destruct (xdh_ok out ella ellb key party hf BA BB BK) as (Q' & EP & C). cbv zeta in *. rewrite (Z.mod_small (be_val key) n) in C by lia.
  rewrite (ell_point_fun _ _ _ EP EQ) in C. destruct C as [[_ C]|[C _]]; [exact (C _ _ EH)|lia].
Qed.
Lemma same_xcoord_pmul k x y y' : on_curve (Aff x y) -> on_curve (Aff x y') -> xcoord (pmul k (Aff x y)) = xcoord (pmul k (Aff x y')).
Proof.
  intros H H'. destruct (same_x_points x y y' H H') as [->|E]; [reflexivity|].
  assert (EY : Aff x y' = pmul (- (1)) (Aff x y)). { rewrite pmul_neg, pmul_1 by exact H. cbn [pneg]. f_equal. replace (- y) with (y' + (-1) * p) by lia. rewrite Z_mod_plus_full. symmetry. apply Z.mod_small. apply H'. }
  rewrite EY, <- pmul_mul by exact H. replace (k * - (1)) with (- k) by ring. rewrite pmul_neg by exact H. destruct (pmul k (Aff x y)); reflexivity.
Qed.
Lemma xcoord_pmul_x k A B : on_curve A -> on_curve B -> A <> Inf -> B <> Inf -> xcoord A = xcoord B -> xcoord (pmul k A) = xcoord (pmul k B).
Proof. destruct A as [|x y], B as [|x' y']; try congruence. cbn [xcoord]. intros H H' _ _ <-. now apply same_xcoord_pmul. Qed.
Definition x_is (ell : list Z) (P : point) : Prop := exists Q, ell_point ell Q /\ xcoord Q = xcoord P.
Lemma prop_xdh_symmetric ella ellb keya keyb outa outb hf : bytes_n 64 ella -> bytes_n 64 ellb -> bytes_n 32 keya -> bytes_n 32 keyb ->
  1 <= be_val keya < n -> 1 <= be_val keyb < n ->
  (exists A, ell_point ella A /\ xcoord A = xcoord (pmul (be_val keya) G)) ->
  (exists B, ell_point ellb B /\ xcoord B = xcoord (pmul (be_val keyb) G)) ->
  let x := be_bytes 32 (xcoord (pmul (be_val keya * be_val keyb) G)) in
  (forall ret out', hf outa x ella ellb = (ret, out') ->
     ellswift_xdh (Some outa) (Some ella) (Some ellb) (Some keya) 0 (Some hf) = mkres (if ret =? 0 then 0 else 1) 0 (Some out')) /\
  (forall ret out', hf outb x ella ellb = (ret, out') ->
     ellswift_xdh (Some outb) (Some ella) (Some ellb) (Some keyb) 1 (Some hf) = mkres (if ret =? 0 then 0 else 1) 0 (Some out')).
Proof.
  intros BA BB KA KB RA RB (A & EA & XA) (B & EB & XB) x.
  assert (K : forall ell P d d', ell_point ell P -> xcoord P = xcoord (pmul d G) -> 1 <= d < n -> xcoord (pmul d' P) = xcoord (pmul (d' * d) G)).
  { intros ell P d d' E X R. rewrite pmul_mul by exact on_curve_G. apply xcoord_pmul_x; [|apply on_curve_mul, on_curve_G| |apply pmul_G_nInf; lia|exact X].
    - destruct P; [destruct E|apply E].
    - destruct P; [destruct E|discriminate]. }
  split; intros ret out' EH.
  - apply (prop_xdh_exact outa ella ellb keya 0 hf B); try assumption. rewrite (K _ _ _ _ EB XB RB). exact EH.
  - apply (prop_xdh_exact outb ella ellb keyb 1 hf A); try assumption. rewrite (K _ _ _ _ EA XA RA), (Z.mul_comm (be_val keyb)). exact EH.
Qed.
Lemma prop_xdh_zero out ella ellb key party hf : bytes_n 64 ella -> bytes_n 64 ellb -> bytes_n 32 key -> be_val key mod n = 0 ->
  r_ret (ellswift_xdh (Some out) (Some ella) (Some ellb) (Some key) party (Some hf)) = 0.
Proof.
  intros BA BB BK Z0. destruct (xdh_ok out ella ellb key party hf BA BB BK) as (Q' & EP & [[C _]|[_ [C _]]]); [contradiction|exact C].
Qed.
Lemma over_val : be_val (be_bytes 32 (n + 1)) = n + 1.
Proof. rewrite be_val_be_bytes. apply Z.mod_small. split; [discriminate|reflexivity]. Qed.
Lemma prop_xdh_overflow out ella ellb party hf : bytes_n 64 ella -> bytes_n 64 ellb ->
  (forall o x a b, fst (hf o x a b) = 1) ->
  r_ret (ellswift_xdh (Some out) (Some ella) (Some ellb) (Some (be_bytes 32 (n + 1))) party (Some hf)) = 1.
Proof.
  intros BA BB HF. destruct (xdh_ok out ella ellb (be_bytes 32 (n + 1)) party hf BA BB (be32_bytes _)) as (Q' & EP & C). cbv zeta in C. rewrite over_val in C.
  destruct C as [[_ C]|[C _]].
  - destruct (hf out _ ella ellb) as [ret out'] eqn:E. rewrite (C _ _ eq_refl). pose proof (HF out (be_bytes 32 (xcoord (pmul ((n + 1) mod n) Q'))) ella ellb) as K. rewrite E in K. cbn [fst] in K. subst ret. reflexivity.
  - exfalso. replace (n + 1) with (1 + 1 * n) in C by ring. rewrite Z_mod_plus_full in C. discriminate C.
Qed.
Lemma prop_c34_refuted : exists out ella ellb key party hf, bytes_n 64 ella /\ bytes_n 64 ellb /\ bytes_n 32 key /\ ~ 1 <= be_val key < n /\
  ec_seckey_verify (Some key) = mkres 0 0 tt /\
  r_ret (ellswift_xdh (Some out) (Some ella) (Some ellb) (Some key) party (Some hf)) = 1.
Proof.
  exists (repeat 0 32), (repeat 0 64), (repeat 0 64), (be_bytes 32 (n + 1)), 0, ellswift_xdh_hash_function_bip324.
  assert (NK : ~ 1 <= be_val (be_bytes 32 (n + 1)) < n) by (rewrite over_val; lia).
  split; [apply zeros_bytes|]. split; [apply zeros_bytes|]. split; [apply be32_bytes|]. split; [exact NK|]. split.
  - pose proof (prop_seckey_verify (be_bytes 32 (n + 1)) (be32_bytes _)) as [[K _]|[_ K]]; [contradiction|exact K].
  - apply prop_xdh_overflow; [apply zeros_bytes|apply zeros_bytes|reflexivity].
Qed.

(** ** The hash functions *)
Lemma prop_hash_prefix data out x a b : bytes_n 64 data -> bytes_n 32 x -> bytes_n 64 a -> bytes_n 64 b -> (32 <= length out)%nat ->
  ellswift_xdh_hash_function_prefix data out x a b = (1, SHA256 (data ++ a ++ b ++ x) ++ skipn 32 out).
Proof.
  intros BD BX BA BB BO. unfold ellswift_xdh_hash_function_prefix. cbv zeta. rewrite !firstn_all2 by (rewrite ?(proj2 BD), ?(proj2 BX), ?(proj2 BA), ?(proj2 BB); lia).
  rewrite (finalize_ok _ ((((([] ++ data)) ++ a) ++ b) ++ x)).
  - rewrite copy_at_0, SHA256_length by (rewrite SHA256_length; exact BO). cbn [app]. rewrite <- !app_assoc. reflexivity.
  - apply write_at; [|apply BX]. apply write_at; [|apply BB]. apply write_at; [|apply BA]. apply write_at; [exact initialize_at|apply BD].
  - rewrite !app_length, (proj2 BD), (proj2 BX), (proj2 BA), (proj2 BB). cbn. lia.
Qed.
Lemma prop_hash_bip324 out x a b : bytes_n 32 x -> bytes_n 64 a -> bytes_n 64 b -> (32 <= length out)%nat ->
  ellswift_xdh_hash_function_bip324 out x a b = (1, tagged_hash (ascii_bytes "bip324_ellswift_xonly_ecdh"%string) (a ++ b ++ x) ++ skipn 32 out).
Proof.
  intros BX BA BB BO. unfold ellswift_xdh_hash_function_bip324. cbv zeta. rewrite !firstn_all2 by (rewrite ?(proj2 BX), ?(proj2 BA), ?(proj2 BB); lia).
  set (tag := ascii_bytes "bip324_ellswift_xonly_ecdh"%string).
  rewrite (finalize_ok _ ((((SHA256 tag ++ SHA256 tag) ++ a) ++ b) ++ x)).
  - rewrite copy_at_0, SHA256_length by (rewrite SHA256_length; exact BO). rewrite <- sha_tag, <- !app_assoc. reflexivity.
  - apply write_at; [|apply BX]. apply write_at; [|apply BB]. apply write_at; [|apply BA]. exact (mid_check_at _ _ mid_bip324).
  - rewrite !app_length, !SHA256_length, (proj2 BX), (proj2 BA), (proj2 BB). cbn. lia.
Qed.

(** ** Creation *)
Definition opt32 (o : option (list Z)) : Prop := match o with Some a => bytes_n 32 a | None => True end.
Lemma prop_create_decode fuel ctx init init' key aux ret ill ell : usable_context ctx -> bytes_n 32 key -> opt32 aux ->
  ellswift_create fuel ctx (Some init) (Some key) aux = Some (mkres ret ill (Some ell)) -> ret <> 0 -> ell_u ell mod p <> 0 ->
  exists pk, ellswift_decode (Some init') (Some ell) = mkres 1 0 (Some pk) /\ ec_pubkey_create ctx (Some init') (Some key) = mkres 1 0 (Some pk) /\ pubkey_holds pk (pmul (be_val key) G).
Proof.
  intros UC BK BA E NR NU. destruct (create_ok _ _ _ _ _ _ UC BK BA E) as [(RK & ell' & i & EE & B & _ & _ & EP)|(_ & EE)]; [|congruence].
  assert (ell = ell') as <- by congruence. destruct (decode_ok init' ell B) as (pk & Q & ED & HP & EQ). exists pk. rewrite (ell_point_fun _ _ _ EQ (EP NU)) in HP.
  split; [exact ED|]. split; [|exact HP]. destruct (prop_create ctx init' key UC BK) as [(_ & _ & pk' & EC & HP')|(K & _)]; [|exfalso; lia].
  rewrite EC. do 2 f_equal. exact (pubkey_holds_inj _ _ _ HP' HP).
Qed.
Lemma norm_ge_inj g g' P : ge_rep f1 g P -> ge_rep f1 g' P -> P <> Inf -> fe_norm (gx g) -> fe_norm (gy g) -> fe_norm (gx g') -> fe_norm (gy g') -> g = g'.
Proof.
  intros R R' NI N1 N2 N1' N2'. destruct P as [|x y]; [congruence|]. destruct R as (_ & _ & _ & I & X & Y), R' as (_ & _ & _ & I' & X' & Y').
  destruct g as [a b i], g' as [a' b' i']. cbn [gx gy ginf] in *. subst i i'. f_equal.
  - apply fe_norm_inj_fv; [assumption|assumption|]. transitivity (toF x * (f1 * f1))%F; [exact X|symmetry; exact X'].
  - apply fe_norm_inj_fv; [assumption|assumption|]. transitivity (toF y * (f1 * f1 * f1))%F; [exact Y|symmetry; exact Y'].
Qed.
Lemma prop_ell_create_blinding fuel ctx ctx' init key aux : usable_context ctx -> usable_context ctx' -> bytes_n 32 key ->
  ellswift_create fuel ctx (Some init) (Some key) aux = ellswift_create fuel ctx' (Some init) (Some key) aux.
Proof.
  intros UC UC' BK. apply usable_ctx in UC as [GC GB]. apply usable_ctx in UC' as [GC' GB']. unfold ellswift_create. rewrite GB, GB'. cbn [negb].
  pose proof (pubkey_create_helper_ok (c_gen ctx) key GC BK) as H. pose proof (pubkey_create_helper_ok (c_gen ctx') key GC' BK) as H'.
  assert (E1 : fst (ec_pubkey_create_helper (c_gen ctx) key) = fst (ec_pubkey_create_helper (c_gen ctx') key)).
  { unfold ec_pubkey_create_helper. destruct (sc_set_b32_seckey key). cbv zeta. cbn [fst]. exact eq_refl. }
  destruct (ec_pubkey_create_helper (c_gen ctx) key) as [[ret s] q]. destruct (ec_pubkey_create_helper (c_gen ctx') key) as [[ret' s'] q']. cbn [fst] in E1. assert (ret = ret') as <- by congruence. assert (s = s') as <- by congruence. clear E1.
  destruct H as (_ & R & NI & _), H' as (_ & R' & _ & _). destruct (norm_ge _ _ R NI) as (A & B & C), (norm_ge _ _ R' NI) as (A' & B' & C'). cbv zeta in *.
  rewrite (norm_ge_inj _ _ _ A A' NI B C B' C'). reflexivity.
Qed.

(** ** Concrete cases *)
Lemma inv_some x u c (X U w1 w2 : Z) : fe_mag 1 x -> fe_mag 1 u -> fv x = toF X -> fv u = toF U -> valid_x X -> negb (Z.land c 2 =? 0) = true ->
  (w1 * w1) mod p = (X - U) mod p -> (X - U) mod p <> 0 ->
  (w2 * w2) mod p = (- ((3 * (X - U) * (U * U) + 4 * (U * U * U + 7)) * (X - U))) mod p -> (w2 * w2) mod p <> 0 ->
  exists t, xswiftec_inv_var x u c = Some t.
Proof.
  intros MX MU EX EU VX B2 H1 N1 H2 N2.
  assert (XX : fx 1 x (toF X)) by (rewrite <- EX; now apply fx_of). assert (XU : fx 1 u (toF U)) by (rewrite <- EU; now apply fx_of).
  apply (fx_norm_weak 1) in XX; [|reflexivity]. apply (fx_norm_weak 1) in XU; [|reflexivity]. rewrite inv_core_eq. apply valid_x_F in VX.
  pose proof (inv_core_ok _ _ (negb (Z.land c 2 =? 0)) (negb (Z.land c 1 =? 0)) _ _ XX XU VX) as H. destruct (inv_core _ _ _ _) as [[s v]|]; [now eexists|]. exfalso.
  apply toF_eq in H1, H2. apply toF_nz in N1, N2. rewrite B2 in H. unfold core_none in H.
  assert (ED : discr (toF U) (toF X - toF U) = (toF w2 * toF w2)%F).
  { unfold discr. rewrite <- (toF_mul w2 w2), H2, <- toF_sub, <- toF_3, <- toF_4, <- !toF_mul, <- !toF_add, <- !toF_mul, <- toF_opp. f_equal. ring. }
  rewrite ED in H. rewrite <- toF_sub in H. destruct H as [K|[K|[[_ K]|K]]].
  - apply K. exists (toF w1). now rewrite <- toF_mul.
  - apply K. now exists (toF w2).
  - apply N2. now rewrite toF_mul.
  - apply N1. rewrite toF_sub, K. ring.
Qed.
Lemma ell_some g h (x y w1 w2 U : Z) : ge_rep f1 g (Aff x y) -> fe_norm (gx g) ->
  let bh := ellswift_prng h 0 in let u32 := ellswift_prng h 1 in
  bytes_n 32 u32 -> be_val u32 = U -> negb (Z.land (Z.land (Z.shiftr (nth 31 bh 0) 4) 7) 2 =? 0) = true ->
  (w1 * w1) mod p = (x - U) mod p -> (x - U) mod p <> 0 ->
  (w2 * w2) mod p = (- ((3 * (x - U) * (U * U) + 4 * (U * U * U + 7)) * (x - U))) mod p -> (w2 * w2) mod p <> 0 ->
  exists t, elligatorswift_var 1 g h = Some (u32, t).
Proof.
  intros R NX bh u32 BU EU EB H1 N1 H2 N2. unfold elligatorswift_var, xelligatorswift_var. cbn [xelligator_loop]. change (0 =? 0) with true. cbv iota.
  change (64 - 1) with 63. change (Z.to_nat (Z.shiftr 63 1)) with 31%nat. change (Z.shiftl (Z.land 63 1) 2) with 4. change (w32 (0 + 1)) with 1. fold bh. fold u32.
  pose proof (ge_rep_oc _ _ _ R) as OC. destruct (ge_rep1_aff _ _ _ R) as (EI & EX & EY).
  destruct (inv_some (gx g) (fe_set_b32_mod u32) (Z.land (Z.shiftr (nth 31 bh 0) 4) 7) x U w1 w2) as [t ->]; try assumption.
  - exact (fe_norm_mag _ NX).
  - exact (fx_mag _ _ _ (fx_b32_mod _ BU)).
  - rewrite (fx_fv _ _ _ (fx_b32_mod _ BU)). now rewrite EU.
  - unfold valid_x. replace (x ^ 3) with (x * x * x) by ring. exact (on_curve_square x y OC).
  - cbv zeta. destruct (Bool.eqb _ _); cbn [negb]; eexists; exact eq_refl.
Qed.

Definition w_he : sha256 := sha256_write (sha256_write ellswift_sha256_init_encode (enc_compressed Gx Gy ++ repeat 0 31)) (repeat 0 32).
Definition w_ue : Z := 0x9f3ac4754f74c40154c3e93fa7491d77c108fc899e44529a0e25f151a9cd246e.
Definition w_sq (x U w1 w2 : Z) : bool :=
  ((w1 * w1) mod p =? (x - U) mod p) && negb ((x - U) mod p =? 0) &&
  ((w2 * w2) mod p =? (- ((3 * (x - U) * (U * U) + 4 * (U * U * U + 7)) * (x - U))) mod p) && negb ((w2 * w2) mod p =? 0) && negb (U mod p =? 0).
Definition w_prng (h : sha256) (U : Z) : bool :=
  let u32 := ellswift_prng h 1 in
  forallb (fun b => (0 <=? b) && (b <? 256)) u32 && Nat.eqb (length u32) 32 && (be_val u32 =? U) &&
  negb (Z.land (Z.land (Z.shiftr (nth 31 (ellswift_prng h 0) 0) 4) 7) 2 =? 0).
Lemma w_some g h U w1 w2 : ge_rep f1 g G -> fe_norm (gx g) -> w_prng h U = true -> w_sq Gx U w1 w2 = true ->
  exists u32 t, elligatorswift_var 1 g h = Some (u32, t) /\ bytes_n 32 u32 /\ be_val u32 = U /\ U mod p <> 0.
Proof.
  intros R NX HP HS. unfold w_prng in HP. cbv zeta in HP. apply andb_true_iff in HP as [HP H4]. apply andb_true_iff in HP as [HP H3]. apply andb_true_iff in HP as [H1 H2].
  unfold w_sq in HS. apply andb_true_iff in HS as [HS S5]. apply negb_true_iff in S5. apply Z.eqb_neq in S5. apply andb_true_iff in HS as [HS S4]. apply andb_true_iff in HS as [HS S3]. apply andb_true_iff in HS as [S1 S2].
  apply Nat.eqb_eq in H2. apply Z.eqb_eq in H3, S1, S3. apply negb_true_iff in S2, S4. apply Z.eqb_neq in S2, S4.
  assert (BU : bytes_n 32 (ellswift_prng h 1)).
  { split; [|exact H2]. apply Forall_forall. intros b I. rewrite forallb_forall in H1. specialize (H1 b I). apply andb_true_iff in H1 as [A B]. apply Z.leb_le in A. apply Z.ltb_lt in B. lia. }
  destruct (ell_some g h Gx Gy w1 w2 U R NX BU H3 H4 S1 S2 S3 S4) as [t E]. exists (ellswift_prng h 1), t. split; [exact E|]. split; [exact BU|]. exact (conj H3 S5).
Qed.
Lemma w_he_ok : w_prng w_he w_ue = true. Proof. vm_cast_no_check (eq_refl true). Qed.
Lemma w_he_sq : w_sq Gx w_ue 42293379134976838140080616213702282889247576077789528707926378007228691648147 27464266360261162631856040379384156461114545247324318033976223306008876250448 = true.
Proof. vm_cast_no_check (eq_refl true). Qed.
Lemma ell_u_app a b : length a = 32%nat -> ell_u (a ++ b) = be_val a.
Proof. intros L. unfold ell_u. rewrite firstn_app, L, Nat.sub_diag, firstn_all2 by lia. cbn [firstn]. now rewrite app_nil_r. Qed.
Lemma w_encode_u init : exists ell, ellswift_encode 1 (Some init) (Some w_pk) (Some (repeat 0 32)) = Some (mkres 1 0 (Some ell)) /\ ell_u ell = w_ue /\ w_ue mod p <> 0.
Proof.
  destruct (pubkey_load_ok _ _ w_pk_ok) as (L & R & NX & NY). unfold ellswift_encode. destruct (pubkey_load w_pk) as [ok g]. cbn [fst snd] in *. subst ok.
  rewrite (serialize_ok g Gx Gy true R). cbv zeta. change (copy_at 0 (enc_compressed Gx Gy) (zeros 64)) with (enc_compressed Gx Gy ++ repeat 0 31).
  change (firstn 32 (repeat 0 32)) with (repeat 0 32). fold w_he. destruct (w_some g w_he _ _ _ R NX w_he_ok w_he_sq) as (u32 & t & E & EL & EU). rewrite E.
  exists (u32 ++ fe_get_b32 t). split; [reflexivity|]. rewrite ell_u_app by apply EL. exact EU.
Qed.
Lemma w_encode init : exists ell, ellswift_encode 1 (Some init) (Some w_pk) (Some (repeat 0 32)) = Some (mkres 1 0 (Some ell)) /\ ell_u ell mod p <> 0.
Proof. destruct (w_encode_u init) as (ell & A & B & C). exists ell. rewrite B. exact (conj A C). Qed.
Definition w_hc : sha256 := sha256_write (sha256_write (sha256_write ellswift_sha256_init_create (w_key 1)) (zeros 32)) (repeat 4 32).
Definition w_uc : Z := 0xc49ed88e5e5ed08e26e6b580bf3613932194747cab932b981e73300d8fd5f514.
Lemma w_hc_ok : w_prng w_hc w_uc = true. Proof. vm_cast_no_check (eq_refl true). Qed.
Lemma w_hc_sq : w_sq Gx w_uc 18942096379341073258107827871150858011053583158582260979923103724842786345055 74744854984944980909627377158745218637332632316134542057919714619506428256536 = true.
Proof. vm_cast_no_check (eq_refl true). Qed.
Lemma w_ell_create_u init : exists ell, ellswift_create 1 w_ctx (Some init) (Some (w_key 1)) (Some (repeat 4 32)) = Some (mkres 1 0 (Some ell)) /\ ell_u ell = w_uc /\ w_uc mod p <> 0.
Proof.
  destruct (usable_ctx _ w_ctx_ok) as [GC GB]. destruct (w_key_ok 1 (w_small 1 w_1)) as (BK & EK & RK). unfold ellswift_create. rewrite GB. cbn [negb].
  pose proof (pubkey_create_helper_ok (c_gen w_ctx) (w_key 1) GC BK) as HC. destruct (ec_pubkey_create_helper (c_gen w_ctx) (w_key 1)) as [[ret s] q]. destruct HC as (KS & R & NI & [(_ & -> & ES)|(V & _)]); [|exfalso; apply V; split; [exact BK|rewrite EK; exact RK]].
  cbv zeta. destruct (norm_ge _ _ R NI) as (R' & NX & NY). cbv zeta in *. set (g := mkge _ _ _) in *. clearbody g. rewrite ES, EK, pmul_1 in R'.
  change (firstn 32 (repeat 4 32)) with (repeat 4 32). rewrite (firstn_all2 (w_key 1) (Nat.eq_le_incl _ _ (proj2 BK))). fold w_hc.
  destruct (w_some g w_hc _ _ _ R' NX w_hc_ok w_hc_sq) as (u32 & t & E & EL & EU). rewrite E. cbn [negb b2z].
  eexists. split; [reflexivity|]. unfold ell_u. replace (firstn 32 (memczero (u32 ++ fe_get_b32 t) 0)) with u32; [exact EU|].
  unfold memczero. cbv zeta. rewrite firstn_map, firstn_app, (proj2 EL), Nat.sub_diag, (firstn_all2 u32 (Nat.eq_le_incl _ _ (proj2 EL))). cbn [firstn]. rewrite app_nil_r. symmetry. exact (memczero_false u32 (proj1 EL)).
Qed.
Lemma w_ell_create init : exists ell, ellswift_create 1 w_ctx (Some init) (Some (w_key 1)) (Some (repeat 4 32)) = Some (mkres 1 0 (Some ell)) /\ ell_u ell mod p <> 0.
Proof. destruct (w_ell_create_u init) as (ell & A & B & C). exists ell. rewrite B. exact (conj A C). Qed.

Lemma w_b4 : bytes_n 32 (repeat 4 32). Proof. split; [apply byte_list_repeat; lia|reflexivity]. Qed.
Lemma w_xdh : exists ella ellb A B, bytes_n 64 ella /\ bytes_n 64 ellb /\ be_val (w_key 1) = 1 /\
  (ell_point ella A /\ xcoord A = xcoord (pmul 1 G)) /\ (ell_point ellb B /\ xcoord B = xcoord (pmul 1 G)) /\ ella <> ellb.
Proof.
  destruct (w_key_ok 1 (w_small 1 w_1)) as (BK & EK & RK).
  destruct (w_encode_u []) as (e1 & E1 & V1 & N1). destruct (encode_ok _ _ _ _ _ _ w_pk_ok (zeros_bytes 32) E1) as (e1' & i1 & K1 & B1 & _ & _ & P1). assert (e1 = e1') as <- by congruence. clear K1.
  destruct (w_ell_create_u []) as (e2 & E2 & V2 & N2).
  destruct (create_ok 1 w_ctx [] (w_key 1) (Some (repeat 4 32)) _ w_ctx_ok BK w_b4 E2) as [(_ & e2' & i2 & K2 & B2 & _ & _ & P2)|[_ K2]]; [|exfalso; congruence].
  assert (e2 = e2') as <- by congruence. clear K2. rewrite EK in P2. rewrite <- V1 in N1. rewrite <- V2 in N2.
  exists e1, e2, G, G. split; [exact B1|]. split; [exact B2|]. split; [exact EK|]. rewrite pmul_1 in *. split; [exact (conj (P1 N1) eq_refl)|]. split; [exact (conj (P2 N2) eq_refl)|].
  intros <-. rewrite V1 in V2. discriminate V2.
Qed.
Lemma w_inverse : exists x u c t, fe_mag 1 x /\ fe_mag 1 u /\ valid_x (fval x) /\ fval u mod p <> 0 /\ xswiftec_inv_var x u c = Some t.
Proof.
  pose proof w_he_sq as HS.
  unfold w_sq in HS. apply andb_true_iff in HS as [HS S5]. apply negb_true_iff in S5. apply Z.eqb_neq in S5. apply andb_true_iff in HS as [HS S4]. apply andb_true_iff in HS as [HS S3]. apply andb_true_iff in HS as [S1 S2].
  apply Z.eqb_eq in S1, S3. apply negb_true_iff in S2, S4. apply Z.eqb_neq in S2, S4.
  pose proof (fx_b32_mod _ (be32_bytes Gx)) as XX. pose proof (fx_b32_mod _ (be32_bytes w_ue)) as XU. rewrite be_val_be_bytes in XX, XU.
  change (Gx mod 256 ^ Z.of_nat 32) with Gx in XX. change (w_ue mod 256 ^ Z.of_nat 32) with w_ue in XU.
  set (x := fe_set_b32_mod (be_bytes 32 Gx)) in *. set (u := fe_set_b32_mod (be_bytes 32 w_ue)) in *. clearbody x u.
  assert (VX : valid_x Gx) by exact (on_curve_square Gx Gy on_curve_G).
  destruct (inv_some x u 2 Gx w_ue _ _ (fx_mag _ _ _ XX) (fx_mag _ _ _ XU) (fx_fv _ _ _ XX) (fx_fv _ _ _ XU) VX eq_refl S1 S2 S3 S4) as [t E].
  exists x, u, 2, t. split; [exact (fx_mag _ _ _ XX)|]. split; [exact (fx_mag _ _ _ XU)|]. split; [|split; [|exact E]].
  - apply valid_x_F. change (toF (fval x)) with (fv x). rewrite (fx_fv _ _ _ XX). now apply valid_x_F.
  - intros K. apply toF_0_iff in K. change (toF (fval u)) with (fv u) in K. rewrite (fx_fv _ _ _ XU) in K. apply S5. now apply toF_0_iff.
Qed.
Lemma prop_xdh_reduced out ella ellb key party hf : bytes_n 32 key ->
  ellswift_xdh out ella ellb (Some key) party hf = ellswift_xdh out ella ellb (Some (be_bytes 32 (be_val key mod n))) party hf.
Proof.
  intros BK. destruct (sc_set_b32_case key BK) as (KS & VS & _). destruct (sc_set_b32_case _ (be32_bytes (be_val key mod n))) as (KS' & VS' & _).
  assert (NP : 0 < n) by reflexivity. pose proof (Z.mod_pos_bound (be_val key) n NP) as RB.
  assert (EV : be_val (be_bytes 32 (be_val key mod n)) = be_val key mod n).
  { rewrite be_val_be_bytes. apply Z.mod_small. split; [apply RB|]. eapply Z.lt_trans; [apply RB|reflexivity]. }
  rewrite EV, Z.mod_mod in VS' by (intros K; rewrite K in NP; discriminate NP).
  assert (E : fst (sc_set_b32 key) = fst (sc_set_b32 (be_bytes 32 (be_val key mod n)))) by (apply sc_ok_inj; [exact KS|exact KS'|rewrite VS, VS'; reflexivity]).
  unfold ellswift_xdh. rewrite E. reflexivity.
Qed.
