(** ECDH and public key recovery. *)
Require Import ZArith List Bool Lia Field.
From Verif Require Import NumTheory Spec SpecApi SpecHash SpecRec Primes ZmField Curve NField Word Bytes.
From Verif Require Import FieldModel FieldMul FieldProof FieldProof2 FieldBytes FieldOps.
From Verif Require Import ScalarModel ScalarProof ScalarProof2 ScalarMul.
From Verif Require Import GroupModel GroupProof GroupProof2 GroupProof3 GroupProof4 GroupProof5.
From Verif Require Import HashModel HashProof GenModel GenProof EcmultModel EcmultProof EcmultProof2 EcmultConst EcdsaModel ApiModel ApiVocab ApiProof ApiProof2 ApiProof3 EcdsaProof EcdsaProof2 KeyProps KeyProps2 RepProof2.
From Verif Require Import EcdhModel RecoveryModel.
Import ListNotations.
Local Open Scope Z_scope.
Local Opaque p n SHA256.

(** ** ECDH *)
Definition the_hash (hf : option ecdh_hash_function) : ecdh_hash_function := match hf with Some f => f | None => ecdh_hash_function_sha256 end.
Lemma ecdh_coords pk Q s x y : pubkey_holds pk Q -> sc_ok s -> pmul (sv s) Q = Aff x y ->
  let g := ge_set_gej (ecmult_const (snd (pubkey_load pk)) s) in
  fe_get_b32 (fe_normalize (gx g)) = be_bytes 32 x /\ fe_get_b32 (fe_normalize (gy g)) = be_bytes 32 y.
Proof.
  intros H K E g. destruct (pubkey_load_ok _ _ H) as (_ & R & _). pose proof (ecmult_const_ok f1 _ _ _ f1_nz R K) as M. rewrite E in M.
  apply ge_set_gej_ok in M as (M & _). fold g in M. clearbody g. destruct (ge_rep_zv _ _ _ M) as [EX EY]. destruct M as (M1 & M2 & _).
  rewrite !fe_get_b32_ok, EX, EY by (apply fe_normalize_norm; eapply mag_weaken; [eassumption|lia]). auto.
Qed.
Lemma ecdh_ok out pk Q key hf : pubkey_holds pk Q -> bytes_n 32 key ->
  let d := be_val key in
  (1 <= d < n /\ exists x y, pmul d Q = Aff x y /\
     forall ret out', the_hash hf (be_bytes 32 x) (be_bytes 32 y) out = (ret, out') ->
       ecdh (Some out) (Some pk) (Some key) hf = mkres (if ret =? 0 then 0 else 1) 0 (Some out')) \/
  (~ 1 <= d < n /\ r_ret (ecdh (Some out) (Some pk) (Some key) hf) = 0 /\ r_ill (ecdh (Some out) (Some pk) (Some key) hf) = 0).
Proof.
  intros H HK d. destruct (pubkey_load_ok _ _ H) as (L & _ & _). destruct (pubkey_holds_oc _ _ H) as (OC & NI).
  destruct (sc_set_b32_case key HK) as (KS & _ & C). fold d in C.
  pose proof (fun s x y => ecdh_coords pk Q s x y H) as CO.
  unfold ecdh. fold (the_hash hf). destruct (pubkey_load pk) as [ok pt]. destruct (sc_set_b32 key) as [s ov]. cbn [fst snd] in *. cbv zeta. subst ok.
  rewrite sc_is_zero_spec by apply KS. rewrite sc_cmov_b by (exact KS || apply sc_one_ok).
  destruct C as [(LT & -> & E)|(LT & ->)]; cbn [orb].
  2:{ right. split; [lia|]. destruct (the_hash hf _ _ _) as [ret out']. cbn [r_ret r_ill negb b2z]. rewrite Z.land_0_r. auto. }
  assert (R0 : 0 <= d) by (pose proof (seckey_range key HK); unfold d; lia).
  rewrite E. destruct (Z.eqb_spec d 0) as [Z0|Z0].
  { right. split; [lia|]. destruct (the_hash hf _ _ _) as [ret out']. cbn [r_ret r_ill negb b2z]. rewrite Z.land_0_r. auto. }
  left. split; [lia|]. pose proof (pmul_nInf d Q OC NI ltac:(lia)) as NI2. destruct (pmul d Q) as [|x y] eqn:EP; [congruence|]. exists x, y. split; [reflexivity|].
  intros ret out' EH. rewrite <- E in EP. destruct (CO s x y KS EP) as (-> & ->). rewrite EH. cbn [negb b2z]. now destruct (ret =? 0).
Qed.
Lemma prop_ecdh_symmetric ctx ctx' i i' ka kb pka pkb out hf : usable_context ctx -> usable_context ctx' -> bytes_n 32 ka -> bytes_n 32 kb ->
  ec_pubkey_create ctx (Some i) (Some ka) = mkres 1 0 (Some pka) -> ec_pubkey_create ctx' (Some i') (Some kb) = mkres 1 0 (Some pkb) ->
  ecdh (Some out) (Some pkb) (Some ka) hf = ecdh (Some out) (Some pka) (Some kb) hf.
Proof.
  intros U U' HA HB CA CB. apply create_inv in CA; [|assumption|assumption]. apply create_inv in CB; [|assumption|assumption].
  destruct CA as (RA & PA). destruct CB as (RB & PB).
  destruct (ecdh_ok out pkb _ ka hf PB HA) as [(_ & x & y & E & T)|(C & _)]; [|contradiction].
  destruct (ecdh_ok out pka _ kb hf PA HB) as [(_ & x' & y' & E' & T')|(C & _)]; [|contradiction].
  rewrite K_mul in E, E'. rewrite Z.mul_comm in E'. rewrite E in E'. injection E' as <- <-.
  destruct (the_hash hf (be_bytes 32 x) (be_bytes 32 y) out) as [ret out']. rewrite (T _ _ eq_refl), (T' _ _ eq_refl). reflexivity.
Qed.
Lemma land_1 y : Z.land y 1 = if Z.odd y then 1 else 0.
Proof. change 1 with (Z.ones 1) at 1. rewrite Z.land_ones by lia. change (2 ^ 1) with 2. rewrite Zmod_odd. reflexivity. Qed.
Lemma nth_last_be y : Z.land (nth 31 (be_bytes 32 y) 0) 1 = if Z.odd y then 1 else 0.
Proof.
  change (be_bytes 32 y) with (be_bytes 31 (y / 256) ++ [y mod 256]). rewrite app_nth2 by (rewrite be_bytes_length; lia). rewrite be_bytes_length. change (31 - 31)%nat with 0%nat.
  cbn [nth]. rewrite land_1. rewrite (Z.div_mod y 256) at 2 by lia. rewrite Z.odd_add, Z.odd_mul. change (Z.odd 256) with false. cbn [andb]. rewrite xorb_false_l. reflexivity.
Qed.
Lemma sha_two a b : byte_list a -> byte_list b -> Z.of_nat (length (a ++ b)) < 2 ^ 61 ->
  sha256_finalize (sha256_write (sha256_write sha256_initialize a) b) = SHA256 (a ++ b).
Proof. intros HA HB L. apply finalize_ok; [|exact L]. apply write_at; [|exact HB]. exact (write_at _ [] a initialize_at HA). Qed.
Lemma ecdh_sha x y out version : Z.lor (Z.land (nth 31 y 0) 1) 2 = version -> byte_list [version] -> byte_list x -> length x = 32%nat ->
  ecdh_hash_function_sha256 x y out = (1, copy_at 0 (SHA256 (version :: x)) out).
Proof.
  intros <- HV HX LX. unfold ecdh_hash_function_sha256. cbv zeta. rewrite (sha_two _ x HV HX); [reflexivity|].
  rewrite app_length, LX. reflexivity.
Qed.
Lemma copy_sha m out : copy_at 0 (SHA256 m) out = SHA256 m ++ skipn 32 out.
Proof. unfold copy_at. rewrite firstn_O, SHA256_length. reflexivity. Qed.
Lemma ecdh_version y : Z.lor (Z.land (nth 31 (be_bytes 32 y) 0) 1) 2 = if Z.odd y then 3 else 2.
Proof. rewrite nth_last_be. destruct (Z.odd y); reflexivity. Qed.
Lemma prop_ecdh_default x y out : (32 <= length out)%nat ->
  ecdh_hash_function_sha256 (be_bytes 32 x) (be_bytes 32 y) out = (1, SHA256 (enc_compressed x y) ++ skipn 32 out).
Proof.
  intro L. rewrite (ecdh_sha _ _ out _ (ecdh_version y)).
  - rewrite copy_sha. reflexivity.
  - apply byte_list_cons; split; [destruct (Z.odd y); lia|constructor].
  - apply be_bytes_byte_list.
  - apply be_bytes_length.
Qed.

(** ** Recovery *)
Lemma recsig_load_ok sig r s v : recsig_holds sig r s v ->
  let '(a, b, c) := recoverable_signature_load sig in sc_ok a /\ sc_ok b /\ sv a = r /\ sv b = s /\ c = v.
Proof.
  intros (R1 & R2 & R3 & ->). rewrite !le_enc_eq. unfold recoverable_signature_load.
  rewrite !(fn_app_exact _ _ 32), !(sk_app_exact _ _ 32), !(fn_app_exact _ _ 32) by apply le_bytes_length.
  rewrite !app_nth2 by (rewrite ?le_bytes_length; lia). rewrite !le_bytes_length.
  destruct (sc_of_bytes_ok r R1), (sc_of_bytes_ok s R2). auto.
Qed.
Lemma recsig_save_ok a b v : sc_ok a -> sc_ok b -> 0 <= v <= 3 -> recsig_holds (recoverable_signature_save a b v) (sv a) (sv b) v.
Proof.
  intros A B V. pose proof (sc_ok_range a A). pose proof (sc_ok_range b B). split; [assumption|]. split; [assumption|]. split; [assumption|].
  unfold recoverable_signature_save. rewrite !le_enc_eq, !sc_bytes_ok by (apply A || apply B). unfold w8. rewrite Z.mod_small by lia. reflexivity.
Qed.
Lemma recsig_holds_inj sig sig' r s v : recsig_holds sig r s v -> recsig_holds sig' r s v -> sig = sig'.
Proof. intros (_ & _ & _ & ->) (_ & _ & _ & ->). reflexivity. Qed.
Lemma recid_land2 v : 0 <= v <= 3 -> negb (Z.land v 2 =? 0) = (2 <=? v).
Proof. intro H. assert (v = 0 \/ v = 1 \/ v = 2 \/ v = 3) as [->|[->|[->| ->]]] by lia; reflexivity. Qed.
Lemma recid_land1 v : negb (Z.land v 1 =? 0) = Z.odd v.
Proof. rewrite land_1. now destruct (Z.odd v). Qed.
Lemma recover_point rn sgs msg g R m w s : sc_ok rn -> sv rn = w -> sc_ok sgs -> sv sgs = s -> sc_ok msg -> toN (sv msg) = toN m -> ge_rep f1 g R ->
  gej_rep f1 (ecmult (gej_set_ge g) (sc_mul rn sgs) (Some (sc_negate (sc_mul rn msg)))) (padd (pmul (w * s) R) (pmul (- (w * m)) G)).
Proof.
  intros KI EI KA EA KM EM RQ. pose proof (ge_rep_oc _ _ _ RQ) as OC.
  pose proof (sc_mul_ok rn msg (proj1 KI) (proj1 KM)) as KU1. pose proof (sc_mul_sv rn msg (proj1 KI) (proj1 KM)) as EU1.
  pose proof (sc_mul_ok rn sgs (proj1 KI) (proj1 KA)) as KU2. pose proof (sc_mul_sv rn sgs (proj1 KI) (proj1 KA)) as EU2.
  destruct (sc_negate_ok _ KU1) as [KN EN].
  pose proof (ecmult_ok2 (gej_set_ge g) _ _ R (gej_set_ge_ok _ _ _ RQ) KU2 KN) as M.
  rewrite EU2, pmul_mod, EN, EI, EA in M by exact OC.
  assert (ER : pmul ((- sv (sc_mul rn msg)) mod n) G = pmul (- (w * m)) G).
  { apply NField.K_eq. rewrite EU1. push_toN. rewrite EM, EI. reflexivity. }
  rewrite ER in M. exact M.
Qed.
(** The field element holding the candidate x coordinate. *)
Lemma recover_x r v : 0 <= r < n -> 0 <= v <= 3 ->
  let fx := snd (fe_set_b32_limit (be_bytes 32 r)) in
  let fx' := if negb (Z.land v 2 =? 0) then if fe_cmp_var fx const_p_minus_order >=? 0 then None else Some (fe_add fx const_order_as_fe) else Some fx in
  let x := r + (if 2 <=? v then n else 0) in
  match fx' with Some f => 0 <= x < p /\ fe_mag 4 f /\ zv (fv f) = x | None => p <= x end.
Proof.
  intros RA HV. cbv zeta. rewrite (recid_land2 v HV). assert (NP : n < p) by exact n_lt_p. assert (RP : 0 <= r < p) by lia.
  destruct (set_limit_case _ (bytes_n_be 32 r)) as [(C & _ & N & V)|(C & _)]; rewrite x32 in * by exact RP; [|lia].
  set (xr := snd (fe_set_b32_limit (be_bytes 32 r))) in *. clearbody xr.
  destruct (2 <=? v).
  - assert (FVX : fval xr = r) by (unfold fv in V; rewrite zv_toF, Z.mod_small in V; [exact V|exact (fval_norm_range _ N)]).
    rewrite const_pmo, (fe_cmp_pmo _ _ N FVX). destruct (Z.ltb_spec r (p - n)) as [LT|LT]; cbn [negb]; [|lia].
    rewrite const_oaf. split; [lia|]. destruct (fe_of_Z_ok n ltac:(lia)) as [NN VN].
    destruct (fe_add_ok 1 1 xr (fe_of_Z n) (fe_norm_mag _ N) (fe_norm_mag _ NN)) as [MA VA]; [lia..|].
    split; [eapply mag_weaken; [exact MA|lia]|]. unfold fv. rewrite VA, FVX, VN, zv_toF. apply Z.mod_small. lia.
  - rewrite Z.add_0_r. split; [exact RP|]. split; [apply norm_mag_k; [exact N|lia]|exact V].
Qed.
Lemma sig_recover_ok a b msg v m : sc_ok a -> sc_ok b -> sc_ok msg -> toN (sv msg) = toN m -> 0 <= v <= 3 ->
  (exists Q g, ecdsa_sig_recover a b msg v = Some g /\ ge_rep f1 g Q /\ recovers (sv a) (sv b) v m Q) \/
  (ecdsa_sig_recover a b msg v = None /\ forall Q, ~ recovers (sv a) (sv b) v m Q).
Proof.
  intros KA KB KM EM HV. pose proof (sc_ok_range a KA) as RA. pose proof (sc_ok_range b KB) as RB.
  unfold ecdsa_sig_recover, recovers. rewrite !sc_is_zero_spec by (apply KA || apply KB).
  destruct (Z.eqb_spec (sv a) 0) as [A0|A0]; cbn [orb]; [right; split; [reflexivity|intros Q (? & _); lia]|].
  destruct (Z.eqb_spec (sv b) 0) as [B0|B0]; [right; split; [reflexivity|intros Q (_ & ? & _); lia]|]. cbv zeta.
  rewrite sc_get_b32_ok by apply KA. pose proof (recover_x (sv a) v RA HV) as RX. cbv zeta in RX.
  set (x := sv a + (if 2 <=? v then n else 0)) in *.
  destruct (if negb (Z.land v 2 =? 0) then _ else _) as [f|].
  2:{ right. split; [reflexivity|]. intros Q (_ & _ & x' & y & OC & -> & _). destruct OC as (OC & _). lia. }
  destruct RX as (RX & MF & VF). rewrite recid_land1.
  destruct (ge_set_xo_var_ok f (Z.odd v) MF) as (SQ & _ & _ & _ & ST). cbv zeta in SQ, ST. rewrite VF in SQ, ST.
  destruct (ge_set_xo_var f (Z.odd v)) as [ok g]. cbn [fst snd] in *. destruct ok.
  2:{ right. split; [reflexivity|]. intros Q (_ & _ & x' & y & OC & -> & _). pose proof (proj2 SQ (on_curve_square _ _ OC)). discriminate. }
  destruct (ST eq_refl) as (y & RG & OY).
  destruct (sc_inverse_ok a) as [KI EI]. unfold sc_inverse_var.
  pose proof (recover_point _ b msg g (Aff x y) m _ (sv b) KI EI KB eq_refl KM EM RG) as M.
  set (qj := ecmult _ _ _) in *. clearbody qj. set (Q := padd _ _) in M.
  pose proof (gej_rep_jinf _ _ _ M) as JI. unfold gej_is_infinity. destruct (jinf qj) eqn:EJ.
  - right. split; [reflexivity|]. intros Q' (_ & _ & x' & y' & OC & -> & OY' & EQ & NI). apply NI.
    assert (y' = y) as -> by (apply (same_x_parity x); [exact OC|exact (ge_rep_oc _ _ _ RG)|congruence]). rewrite EQ. fold Q. now apply JI.
  - left. exists Q, (ge_set_gej_var qj). split; [reflexivity|]. split; [now apply ge_set_gej_var_ok|].
    split; [lia|]. split; [lia|]. exists x, y. split; [exact (ge_rep_oc _ _ _ RG)|]. split; [reflexivity|]. split; [exact OY|]. split; [reflexivity|].
    intro E. apply JI in E. discriminate.
Qed.
Lemma recover_ok init sig r s v msg : recsig_holds sig r s v -> bytes_n 32 msg ->
  (exists Q pk, recovers r s v (be_val msg) Q /\ pubkey_holds pk Q /\ ecdsa_recover (Some init) (Some sig) (Some msg) = mkres 1 0 (Some pk)) \/
  ((forall Q, ~ recovers r s v (be_val msg) Q) /\ ecdsa_recover (Some init) (Some sig) (Some msg) = mkres 0 0 (Some (repeat 0 64))).
Proof.
  intros H HM. pose proof (recsig_load_ok _ _ _ _ H) as L. unfold ecdsa_recover. destruct (recoverable_signature_load sig) as [[a b] c].
  destruct L as (KA & KB & <- & <- & ->). destruct (sc_set_b32_case msg HM) as (KM & EM & _).
  destruct H as (_ & _ & HV & _).
  destruct (sig_recover_ok a b _ v (be_val msg) KA KB KM ltac:(rewrite EM; apply toN_mod) HV) as [(Q & g & E & RG & RC)|(E & RC)]; rewrite E.
  - left. exists Q, (pubkey_save g). split; [exact RC|]. split; [|reflexivity]. apply pubkey_save_ok; [exact RG|].
    destruct RC as (_ & _ & x & y & _ & _ & _ & _ & NI). exact NI.
  - right. split; [exact RC|reflexivity].
Qed.
Lemma recovers_fun r s v m Q Q' : recovers r s v m Q -> recovers r s v m Q' -> Q = Q'.
Proof.
  intros (_ & _ & x & y & OC & EX & OY & EQ & _) (_ & _ & x' & y' & OC' & EX' & OY' & EQ' & _).
  assert (x' = x) as -> by congruence. assert (y' = y) as -> by (apply (same_x_parity x); [exact OC'|exact OC|congruence]). congruence.
Qed.
(** A recovered key verifies. *)
Lemma recovers_valid r s v m Q : recovers r s v m Q -> ecdsa_valid Q m r s.
Proof.
  intros (HR & HS & x & y & OC & EX & OY & EQ & NI). split; [exact HR|]. split; [exact HS|]. cbv zeta.
  destruct (all_points_multiples_of_G _ OC) as (k & _ & EK).
  assert (NR : toN r <> nz0) by now apply toN_small_nz. assert (NS : toN s <> nz0) by now apply toN_small_nz.
  assert (E : padd (pmul (m * inv_mod s n) G) (pmul (r * inv_mod s n) Q) = Aff x y).
  { rewrite EQ, EK. rewrite K_mul, K_add, K_mul, K_add. apply NField.K_eq. push_toN. field. split; assumption. }
  rewrite E. split; [discriminate|]. cbn [xcoord]. apply (x_mod_n_cases x r); [apply OC|lia|].
  destruct (2 <=? v); [right|left; lia]. split; [|exact EX]. destruct OC as (OC & _). lia.
Qed.
(** The nonce point that the signature (r, lower s) stands for. *)
Lemma odd_neg x y : on_curve (Aff x y) -> Z.odd ((- y) mod p) = negb (Z.odd y).
Proof.
  intro OC. pose proof (y_neq_0 _ _ OC) as NZ. assert (RY := proj1 (proj2 OC)). cbn [on_curve] in RY.
  replace ((- y) mod p) with (p - y) by (apply Z.mod_unique_pos with (q := -1); lia).
  rewrite Z.odd_sub. change (Z.odd p) with true. now destruct (Z.odd y).
Qed.
Lemma xy_neg k x y (hi : bool) : pmul k G = Aff x y -> exists y', pmul (if hi then - k else k) G = Aff x y' /\ Z.odd y' = xorb (Z.odd y) hi.
Proof.
  intros E. destruct hi.
  - rewrite pmul_neg by exact on_curve_G. rewrite E. exists ((- y) mod p). split; [reflexivity|]. rewrite xorb_true_r. apply (odd_neg x). rewrite <- E. auto with curve.
  - exists y. now rewrite xorb_false_r.
Qed.
Lemma recid_2 d m k : (2 <=? ecdsa_recid d m k) = (n <=? xcoord (pmul k G)).
Proof. unfold ecdsa_recid. destruct (n <=? _), (xorb _ _); reflexivity. Qed.
Lemma recid_odd d m k : Z.odd (ecdsa_recid d m k) = xorb (Z.odd (ycoord (pmul k G))) (ecdsa_high d m k).
Proof. unfold ecdsa_recid. destruct (n <=? _), (xorb _ _); reflexivity. Qed.
Lemma p_lt_2n : p < 2 * n. Proof. reflexivity. Qed.
Lemma sign_recovers d m k : 1 <= d < n -> 1 <= k < n -> ecdsa_r k <> 0 -> ecdsa_s d m k <> 0 ->
  recovers (ecdsa_r k) (ecdsa_low_s d m k) (ecdsa_recid d m k) m (pmul d G).
Proof.
  intros Rd Rk NR NS. pose proof (ecdsa_r_range k) as RR. pose proof (ecdsa_low_s_range d m k NS) as RS. destruct half_pos as [H1 H2].
  split; [lia|]. split; [lia|]. rewrite recid_2, recid_odd.
  destruct (pmul k G) as [|x y] eqn:EK; [destruct (pmul_G_nInf k Rk EK)|].
  destruct (xy_neg k x y (ecdsa_high d m k) EK) as (y' & EY & OY). cbn [xcoord ycoord].
  assert (OC : on_curve (Aff x y')) by (rewrite <- EY; auto with curve). exists x, y'. split; [exact OC|].
  split; [|split; [exact OY|split; [|now apply pmul_G_nInf]]].
  - unfold ecdsa_r. rewrite EK. cbn [xcoord]. destruct OC as (RX & _). pose proof p_lt_2n. destruct (Z.leb_spec n x).
    + symmetry. replace (x mod n) with (x - n); [lia|]. apply Z.mod_unique_pos with (q := 1); lia.
    + rewrite Z.mod_small; lia.
  - rewrite <- EY, K_mul, K_add. apply NField.K_eq.
    assert (NK : toN k <> nz0) by now apply toN_small_nz.
    assert (NNR : toN (ecdsa_r k) <> nz0) by (apply toN_small_nz; lia).
    assert (ES : toN (ecdsa_s d m k) = (ninv (toN k) * (toN m + toN (ecdsa_r k) * toN d))%Fn) by (unfold ecdsa_s; push_toN; reflexivity).
    unfold ecdsa_low_s. destruct (ecdsa_high d m k); push_toN; rewrite ES; field; auto.
Qed.

Lemma rec_zero_holds : recsig_holds (repeat 0 65) 0 0 0.
Proof. split; [split; [lia|reflexivity]|]. split; [split; [lia|reflexivity]|]. split; [lia|reflexivity]. Qed.
(** What signing returns. *)
Lemma sign_recoverable_ok fuel ctx init msg key nf nd res : usable_context ctx -> bytes_n 32 msg -> bytes_n 32 key ->
  nonce_bytes (the_nonce nf) msg key nd -> ecdsa_sign_recoverable fuel ctx (Some init) (Some msg) (Some key) nf nd = Some res ->
  exists i, (forall j, (j < i)%nat -> rejected (the_nonce nf msg key None nd) (sign_d key) (be_val msg) (Z.of_nat j mod 2 ^ 32)) /\
   ((exists l sig, the_nonce nf msg key None nd (Z.of_nat i mod 2 ^ 32) = Some l /\ nonce_usable (be_val key) (be_val msg) l /\
       1 <= be_val key < n /\
       recsig_holds sig (ecdsa_r (be_val l)) (ecdsa_low_s (be_val key) (be_val msg) (be_val l)) (ecdsa_recid (be_val key) (be_val msg) (be_val l)) /\
       res = mkres 1 0 (Some sig)) \/
    ((the_nonce nf msg key None nd (Z.of_nat i mod 2 ^ 32) = None \/ ~ 1 <= be_val key < n) /\ res = mkres 0 0 (Some (repeat 0 65)))).
Proof.
  intros U HM HK NB. destruct (usable_ctx _ U) as [HG HB]. unfold ecdsa_sign_recoverable. rewrite HB. cbn [negb].
  destruct (ecdsa_sign_inner fuel (c_gen ctx) msg key nf nd) as [[[[ret r] s] recid]|] eqn:E; [|discriminate]. intros ER. apply Some_inj in ER. subst res.
  destruct (sign_inner_ok _ _ _ _ _ _ _ _ _ _ HG HM HK NB E) as (K1 & K2 & i & r1 & s1 & rec1 & ret1 & [LR LE] & RET & T & FF).
  exists i. split; [exact LR|]. change (0 + Z.of_nat i) with (Z.of_nat i) in LE.
  unfold sign_d in LE. destruct (Z.ltb_spec 0 (be_val key)) as [P1|P1]; destruct (Z.ltb_spec (be_val key) n) as [P2|P2]; cbn [andb] in *.
  2-4: rewrite andb_false_r in RET; subst ret; destruct (FF eq_refl) as (-> & -> & ->); right; (split; [right; lia|reflexivity]).
  destruct LE as [[LN ->]|(l & LN & UN & -> & E1 & E2 & E3)]; cbn [andb] in RET; subst ret.
  - right. split; [now left|]. destruct (FF eq_refl) as (-> & -> & ->). reflexivity.
  - left. destruct (T eq_refl) as (T1 & T2 & T3). exists l, (recoverable_signature_save r s recid). split; [exact LN|]. split; [exact UN|]. split; [lia|]. split; [|reflexivity].
    rewrite <- E1, <- E2, <- E3, <- T1, <- T2, <- T3. apply recsig_save_ok; [assumption..|]. rewrite T3, E3.
    pose proof (ecdsa_recid_range (be_val key) (be_val msg) (be_val l)). lia.
Qed.
Lemma prop_recover_sign fuel ctx ctx' init init' init2 msg key nf nd sig pk : usable_context ctx -> usable_context ctx' ->
  bytes_n 32 msg -> bytes_n 32 key -> nonce_bytes (the_nonce nf) msg key nd ->
  ecdsa_sign_recoverable fuel ctx (Some init) (Some msg) (Some key) nf nd = Some (mkres 1 0 (Some sig)) ->
  ec_pubkey_create ctx' (Some init') (Some key) = mkres 1 0 (Some pk) ->
  ecdsa_recover (Some init2) (Some sig) (Some msg) = mkres 1 0 (Some pk).
Proof.
  intros U U' HM HK NB HS HP. destruct (create_inv _ _ _ _ U' HK HP) as [V PH].
  destruct (sign_recoverable_ok _ _ _ _ _ _ _ _ U HM HK NB HS) as (i & _ & [(l & sig' & _ & (U1 & U2 & U3) & _ & SH & E)|(_ & E)]); [|discriminate E].
  apply (f_equal r_out) in E. cbn [r_out] in E. apply Some_inj in E. subst sig'.
  pose proof (sign_recovers _ _ _ V U1 U2 U3) as RC.
  destruct (recover_ok init2 _ _ _ _ msg SH HM) as [(Q & pk' & RC' & PH' & ->)|(NO & _)]; [|destruct (NO _ RC)].
  pose proof (recovers_fun _ _ _ _ _ _ RC RC') as <-. now rewrite (pubkey_holds_inj _ _ _ PH PH').
Qed.
Lemma prop_sign_recoverable_total fuel ctx init msg key nf nd r : usable_context ctx -> bytes_n 32 msg -> bytes_n 32 key -> nonce_bytes (the_nonce nf) msg key nd ->
  ecdsa_sign_recoverable fuel ctx (Some init) (Some msg) (Some key) nf nd = Some r ->
  (1 <= be_val key < n /\ exists sig, r = mkres 1 0 (Some sig)) \/ r = mkres 0 0 (Some (repeat 0 65)).
Proof.
  intros U HM HK NB E.
  destruct (sign_recoverable_ok _ _ _ _ _ _ _ _ U HM HK NB E) as (i & _ & [(l & sig' & _ & _ & V & _ & ->)|(_ & ->)]); [left; split; [exact V|eauto]|now right].
Qed.
(** Dropping the recovery id gives what secp256k1_ecdsa_sign returns. *)
Lemma save_convert r s v : sc_ok r -> sc_ok s -> 0 <= v <= 3 -> recoverable_signature_load (recoverable_signature_save r s v) = (r, s, v).
Proof.
  intros A B V. pose proof (recsig_load_ok _ _ _ _ (recsig_save_ok r s v A B V)) as L.
  destruct (recoverable_signature_load _) as [[a b] c]. destruct L as (KA & KB & EA & EB & ->).
  f_equal. f_equal; apply sc_ok_inj; assumption.
Qed.
Lemma prop_convert fuel ctx init init' init2 msg key nf nd ret sig : usable_context ctx -> bytes_n 32 msg -> bytes_n 32 key -> nonce_bytes (the_nonce nf) msg key nd ->
  ecdsa_sign_recoverable fuel ctx (Some init) (Some msg) (Some key) nf nd = Some (mkres ret 0 (Some sig)) ->
  exists sig', ecdsa_sign fuel ctx (Some init') (Some msg) (Some key) nf nd = Some (mkres ret 0 (Some sig')) /\
    recoverable_signature_convert (Some init2) (Some sig) = mkres 1 0 (Some sig').
Proof.
  intros U HM HK NB. destruct (usable_ctx _ U) as [HG HB]. unfold ecdsa_sign_recoverable, ecdsa_sign, recoverable_signature_convert. rewrite HB. cbn [negb].
  destruct (ecdsa_sign_inner fuel (c_gen ctx) msg key nf nd) as [[[[rt r] s] recid]|] eqn:E; [|discriminate].
  destruct (sign_inner_ok _ _ _ _ _ _ _ _ _ _ HG HM HK NB E) as (K1 & K2 & i & r1 & s1 & rec1 & ret1 & [LR LE] & RET & T & FF).
  assert (V : 0 <= recid <= 3).
  { destruct rt; [|destruct (FF eq_refl) as (_ & _ & ->); lia]. destruct (T eq_refl) as (_ & _ & ->).
    destruct LE as [[_ ->]|(l & _ & _ & _ & _ & _ & ->)]; [discriminate RET|]. pose proof (ecdsa_recid_range (sign_d key) (be_val msg) (be_val l)). lia. }
  intros ER. apply Some_inj in ER. injection ER as <- <-. exists (signature_save r s). split; [reflexivity|]. now rewrite save_convert.
Qed.
Lemma prop_recover_exact init sig r s v msg : recsig_holds sig r s v -> bytes_n 32 msg ->
  (exists Q pk, ecdsa_recover (Some init) (Some sig) (Some msg) = mkres 1 0 (Some pk) /\ recovers r s v (be_val msg) Q /\ pubkey_holds pk Q) \/
  (ecdsa_recover (Some init) (Some sig) (Some msg) = mkres 0 0 (Some (repeat 0 64)) /\ forall Q, ~ recovers r s v (be_val msg) Q).
Proof. intros H HM. destruct (recover_ok init _ _ _ _ msg H HM) as [(Q & pk & A & B & C)|(A & B)]; [left; exists Q, pk; auto|right; auto]. Qed.
Lemma convert_ok init sig r s v : recsig_holds sig r s v -> exists sig', recoverable_signature_convert (Some init) (Some sig) = mkres 1 0 (Some sig') /\ sig_holds sig' r s.
Proof.
  intro H. pose proof (recsig_load_ok _ _ _ _ H) as L. unfold recoverable_signature_convert. destruct (recoverable_signature_load sig) as [[a b] c].
  destruct L as (KA & KB & <- & <- & _). eexists. split; [reflexivity|]. now apply sig_save_ok.
Qed.
Lemma prop_recovered_verifies init init2 init3 sig r s v msg pk : recsig_holds sig r s v -> bytes_n 32 msg ->
  ecdsa_recover (Some init) (Some sig) (Some msg) = mkres 1 0 (Some pk) ->
  exists Q, pubkey_holds pk Q /\ 1 <= r /\ 1 <= s /\ ecdsa_valid Q (be_val msg) r s /\
    exists sig1 sig2 ret, recoverable_signature_convert (Some init2) (Some sig) = mkres 1 0 (Some sig1) /\
      ecdsa_signature_normalize (Some init3) (Some sig1) = mkres ret 0 (Some sig2) /\
      ecdsa_verify (Some sig2) (Some msg) (Some pk) = mkres 1 0 tt.
Proof.
  intros H HM E. destruct (recover_ok init _ _ _ _ msg H HM) as [(Q & pk' & RC & PH & E')|(_ & E')]; rewrite E in E'; [|discriminate E'].
  apply (f_equal r_out) in E'. cbn [r_out] in E'. apply Some_inj in E'. subst pk'. pose proof (recovers_valid _ _ _ _ _ RC) as VA.
  exists Q. split; [exact PH|]. split; [apply RC|]. split; [apply RC|]. split; [exact VA|].
  destruct (convert_ok init2 _ _ _ _ H) as (sig1 & E1 & S1).
  destruct (prop_normalize init3 _ _ _ S1) as (sig2 & S2 & E2 & _ & _ & _ & _ & VV).
  exists sig1, sig2. eexists. split; [exact E1|]. split; [exact E2|]. now apply (VV msg pk Q).
Qed.
(** The compact encoding. *)
Lemma prop_rec_compact init init' recid0 inp v : bytes_n 64 inp ->
  let r := be_val (firstn 32 inp) in let s := be_val (skipn 32 inp) in
  (0 <= v <= 3 /\ r < n /\ s < n /\ exists sig, recoverable_signature_parse_compact (Some init) (Some inp) v = mkres 1 0 (Some sig) /\ recsig_holds sig r s v /\
     recoverable_signature_serialize_compact (Some init') (Some recid0) (Some sig) = mkres 1 0 (Some inp, Some v)) \/
  (0 <= v <= 3 /\ ~ (r < n /\ s < n) /\ recoverable_signature_parse_compact (Some init) (Some inp) v = mkres 0 0 (Some (repeat 0 65))) \/
  (~ 0 <= v <= 3 /\ recoverable_signature_parse_compact (Some init) (Some inp) v = mkres 0 1 (Some init)).
Proof.
  intros HI r s. destruct (bytes_n_split 32 32 inp HI) as [H1 H2].
  assert (F : firstn 32 (skipn 32 inp) = skipn 32 inp) by (apply firstn_all2; rewrite (proj2 H2); lia).
  unfold recoverable_signature_parse_compact.
  destruct (Z.geb_spec v 0) as [V0|V0]; destruct (Z.leb_spec v 3) as [V3|V3]; cbn [andb negb].
  2-4: right; right; split; [lia|reflexivity].
  rewrite F. destruct (sc_set_b32_case _ H1) as (K1 & _ & C1). destruct (sc_set_b32_case _ H2) as (K2 & _ & C2). fold r in C1. fold s in C2.
  destruct (sc_set_b32 (firstn 32 inp)) as [a o1]. destruct (sc_set_b32 (skipn 32 inp)) as [b o2]. cbn [fst snd] in *.
  destruct C1 as [(R1 & -> & E1)|(R1 & ->)]; [|right; left; split; [lia|split; [lia|reflexivity]]].
  destruct C2 as [(R2 & -> & E2)|(R2 & ->)]; [|right; left; split; [lia|split; [lia|reflexivity]]].
  left. split; [lia|]. split; [lia|]. split; [lia|]. exists (recoverable_signature_save a b v). cbn [andb negb]. split; [reflexivity|].
  split; [rewrite <- E1, <- E2; apply recsig_save_ok; [assumption..|lia]|].
  unfold recoverable_signature_serialize_compact. rewrite save_convert by (assumption || lia).
  rewrite !sc_get_b32_ok by (apply K1 || apply K2). rewrite E1, E2. unfold r, s. rewrite !bytes_x by assumption. now rewrite firstn_skipn.
Qed.
Lemma prop_convert_rev fuel ctx init init' init2 msg key nf nd ret sig' : usable_context ctx -> bytes_n 32 msg -> bytes_n 32 key -> nonce_bytes (the_nonce nf) msg key nd ->
  ecdsa_sign fuel ctx (Some init') (Some msg) (Some key) nf nd = Some (mkres ret 0 (Some sig')) ->
  exists sig, ecdsa_sign_recoverable fuel ctx (Some init) (Some msg) (Some key) nf nd = Some (mkres ret 0 (Some sig)) /\
    recoverable_signature_convert (Some init2) (Some sig) = mkres 1 0 (Some sig').
Proof.
  intros U HM HK NB E.
  assert (EX : exists sig, ecdsa_sign_recoverable fuel ctx (Some init) (Some msg) (Some key) nf nd = Some (mkres ret 0 (Some sig))).
  { destruct (usable_ctx _ U) as [HG HB]. unfold ecdsa_sign_recoverable. unfold ecdsa_sign in E. rewrite HB in *. cbn [negb] in *.
    destruct (ecdsa_sign_inner fuel (c_gen ctx) msg key nf nd) as [[[[rt r] s] recid]|]; [|discriminate].
    apply Some_inj in E. injection E as <- <-. eexists. reflexivity. }
  destruct EX as [sig ES]. exists sig. split; [exact ES|].
  destruct (prop_convert fuel ctx init init' init2 msg key nf nd ret sig U HM HK NB ES) as (sig2 & E2 & C). rewrite E in E2. apply Some_inj in E2.
  apply (f_equal r_out) in E2. cbn [r_out] in E2. apply Some_inj in E2. now subst sig2.
Qed.
Lemma prop_sign_recoverable_indep fuel c1 c2 init msg key nf nd : usable_context c1 -> usable_context c2 ->
  bytes_n 32 msg -> bytes_n 32 key -> nonce_bytes (the_nonce nf) msg key nd ->
  ecdsa_sign_recoverable fuel c1 (Some init) (Some msg) (Some key) nf nd = ecdsa_sign_recoverable fuel c2 (Some init) (Some msg) (Some key) nf nd.
Proof.
  intros U1 U2 HM HK NB. destruct (usable_ctx _ U1) as [A1 B1]. destruct (usable_ctx _ U2) as [A2 B2].
  unfold ecdsa_sign_recoverable. rewrite B1, B2. cbn [negb]. now rewrite (sign_inner_indep fuel _ _ _ _ _ _ A1 A2 HM HK NB).
Qed.
(** Witnesses. *)
Lemma w_rec_sign init : exists sig, ecdsa_sign_recoverable 1 w_ctx (Some init) (Some (repeat 0 32)) (Some (w_key 1)) (Some w_nonce) None = Some (mkres 1 0 (Some sig)).
Proof.
  destruct (w_sign []) as [sig E]. destruct w_bad_key as (HM & _).
  destruct (prop_convert_rev 1 w_ctx init [] [] _ _ _ _ 1 sig w_ctx_ok HM (proj1 (w_key_ok 1 (w_small 1 w_1))) (w_nonce_ok _ _ _) E) as (sg & H & _). now exists sg.
Qed.
Lemma w_recovers : recovers (ecdsa_r 1) (ecdsa_low_s 1 0 1) (ecdsa_recid 1 0 1) 0 (pmul 1 G).
Proof. destruct w_usable as (_ & A & B). apply sign_recovers; [apply w_small, w_1..|exact A|exact B]. Qed.
Lemma w_recsig : recsig_holds (le_enc 32 7 ++ le_enc 32 (n - 9) ++ [3]) 7 (n - 9) 3.
Proof. split; [split; [lia|reflexivity]|]. split; [split; [|reflexivity]|]; [vm_compute; discriminate|]. split; [lia|reflexivity]. Qed.
