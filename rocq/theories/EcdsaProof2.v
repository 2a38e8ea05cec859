(** ECDSA signing. *)
Require Import ZArith List Bool Lia Field.
From Verif Require Import NumTheory Spec SpecApi Primes ZmField Curve NField Word Bytes.
From Verif Require Import FieldModel FieldMul FieldProof FieldProof2 FieldBytes FieldOps.
From Verif Require Import ScalarModel ScalarProof ScalarProof2 ScalarMul.
From Verif Require Import GroupModel GroupProof GroupProof2 GroupProof3 GroupProof4 GroupProof5.
From Verif Require Import HashModel GenModel GenProof EcmultModel EcmultProof EcmultProof2 EcdsaModel ApiModel ApiVocab ApiProof ApiProof2 ApiProof3 EcdsaProof.
Import ListNotations.
Local Open Scope Z_scope.

(** ** The equation behind sign-then-verify *)
Lemma inv_mod_n_range a : 0 <= inv_mod a n < n. Proof. apply inv_mod_range. reflexivity. Qed.
Lemma mod_n_range a : 0 <= a mod n < n. Proof. apply Z.mod_pos_bound. exact n_pos. Qed.
Lemma ecdsa_r_range k : 0 <= ecdsa_r k < n. Proof. apply mod_n_range. Qed.
Lemma ecdsa_s_range d m k : 0 <= ecdsa_s d m k < n. Proof. apply mod_n_range. Qed.
Lemma half_pos : 0 < n / 2 /\ n = 2 * (n / 2) + 1. Proof. split; reflexivity. Qed.
Lemma ecdsa_low_s_range d m k : ecdsa_s d m k <> 0 -> 1 <= ecdsa_low_s d m k <= n / 2.
Proof.
  intros NZ. pose proof (ecdsa_s_range d m k) as R. destruct half_pos as [H1 H2]. unfold ecdsa_low_s, ecdsa_high.
  destruct (Z.ltb_spec (n / 2) (ecdsa_s d m k)); lia.
Qed.
Lemma xcoord_neg P : xcoord (pneg P) = xcoord P. Proof. now destruct P. Qed.
(** The nonce point recomputed by verification: kG, or -kG when s was negated. *)
Lemma verify_eqn d m k : 1 <= k < n -> ecdsa_s d m k <> 0 ->
  let w := inv_mod (ecdsa_low_s d m k) n in
  padd (pmul (m * w) G) (pmul (ecdsa_r k * w) (pmul d G)) = pmul (if ecdsa_high d m k then - k else k) G.
Proof.
  intros Rk NZ w. rewrite K_mul, K_add. apply K_eq. unfold w. push_toN.
  assert (NK : toN k <> nz0) by now apply toN_small_nz.
  assert (ES : toN (ecdsa_s d m k) = (ninv (toN k) * (toN m + toN (ecdsa_r k) * toN d))%Fn) by (unfold ecdsa_s; push_toN; reflexivity).
  assert (NS : toN (ecdsa_s d m k) <> nz0) by (apply toN_small_nz; pose proof (ecdsa_s_range d m k); lia).
  assert (EK : (toN m + toN (ecdsa_r k) * toN d = toN k * toN (ecdsa_s d m k))%Fn) by (rewrite ES; field; exact NK).
  transitivity ((toN m + toN (ecdsa_r k) * toN d) * ninv (toN (ecdsa_low_s d m k)))%Fn; [ring|]. rewrite EK. clear EK ES.
  unfold ecdsa_low_s. destruct (ecdsa_high d m k); push_toN.
  - assert (NS2 : (0 - toN (ecdsa_s d m k))%Fn <> nz0).
    { intros E. apply NS. transitivity (- (nz0 - toN (ecdsa_s d m k)))%Fn; [ring|]. rewrite E. ring. }
    field. assumption.
  - field. exact NS.
Qed.
Lemma sign_valid d m k : 1 <= k < n -> ecdsa_r k <> 0 -> ecdsa_s d m k <> 0 -> ecdsa_valid (pmul d G) m (ecdsa_r k) (ecdsa_low_s d m k).
Proof.
  intros Rk NR NS. pose proof (ecdsa_r_range k) as RR. pose proof (ecdsa_low_s_range d m k NS) as RS. destruct half_pos as [H1 H2].
  split; [lia|]. split; [lia|]. cbv zeta. rewrite (verify_eqn d m k Rk NS).
  assert (E : xcoord (pmul (if ecdsa_high d m k then - k else k) G) = xcoord (pmul k G)).
  { destruct (ecdsa_high d m k); [|reflexivity]. now rewrite pmul_neg, xcoord_neg by exact on_curve_G. }
  split; [|now rewrite E]. destruct (ecdsa_high d m k); [|now apply pmul_G_nInf].
  rewrite pmul_neg by exact on_curve_G. pose proof (pmul_G_nInf k Rk). destruct (pmul k G); [congruence|discriminate].
Qed.

(** ** secp256k1_ecdsa_sig_sign *)
Lemma recid_bits (ov od hi : bool) :
  Z.lxor (Z.lor (Z.shiftl (b2z ov) 1) (b2z od)) (b2z hi) = (if ov then 2 else 0) + (if xorb od hi then 1 else 0).
Proof. now destruct ov, od, hi. Qed.
Lemma nonce_point gctx non k : gen_ctx_ok gctx -> sc_ok non -> sv non = k -> 1 <= k < n ->
  let r := ge_set_gej (ecmult_gen gctx non) in
  fe_norm (fe_normalize (gx r)) /\ fe_norm (fe_normalize (gy r)) /\
  fval (fe_normalize (gx r)) = xcoord (pmul k G) /\ fval (fe_normalize (gy r)) = ycoord (pmul k G).
Proof.
  intros HG KN EN Rk r. pose proof (ecmult_gen_ok gctx non HG KN) as M. rewrite EN in M. apply ge_set_gej_ok in M as (M & _).
  fold r in M. clearbody r. pose proof (pmul_G_nInf k Rk) as NI. destruct (pmul k G) as [|x y]; [congruence|].
  destruct (ge_rep_zv _ _ _ M) as [EX EY]. destruct M as (M1 & M2 & _). cbn [xcoord ycoord].
  split; [apply fe_normalize_norm; eapply mag_weaken; [exact M1|lia]|]. split; [apply fe_normalize_norm; eapply mag_weaken; [exact M2|lia]|]. auto.
Qed.
Lemma cond_negate_high s : sc_ok s -> let c := sc_cond_negate s (b2z (sc_is_high s)) in
  sc_ok (fst c) /\ sv (fst c) = (if n / 2 <? sv s then n - sv s else sv s).
Proof.
  intros K. cbv zeta. rewrite sc_cond_negate_ok by (try assumption; destruct (sc_is_high s); auto). cbn [fst].
  rewrite sc_is_high_spec by apply K. destruct half_pos as [H1 H2]. pose proof (sc_ok_range s K) as R.
  destruct (Z.ltb_spec (n / 2) (sv s)); cbn [b2z Z.eqb].
  - destruct (sc_negate_ok s K) as [K' E]. split; [exact K'|]. rewrite E, Z.mod_opp_l_nz; rewrite ?(Z.mod_small (sv s)) by lia; lia.
  - auto.
Qed.
Lemma sig_sign_ok gctx sec msg non d m k : gen_ctx_ok gctx -> sc_ok sec -> sc_ok msg -> sc_ok non ->
  sv sec = d -> toN (sv msg) = toN m -> sv non = k -> 1 <= k < n ->
  let '(ret, r, s, recid) := ecdsa_sig_sign gctx sec msg non in
  sc_ok r /\ sc_ok s /\ sv r = ecdsa_r k /\ sv s = ecdsa_low_s d m k /\ recid = ecdsa_recid d m k /\
  ret = negb (ecdsa_r k =? 0) && negb (ecdsa_s d m k =? 0).
Proof.
  intros HG KS KM KN ES EM EN Rk. unfold ecdsa_sig_sign. pose proof (nonce_point gctx non k HG KN EN Rk) as NP. cbv zeta in NP |- *.
  set (r := ge_set_gej (ecmult_gen gctx non)) in *. clearbody r. destruct NP as (NX & NY & EX & EY).
  assert (RX : 0 <= xcoord (pmul k G) < p) by (rewrite <- EX; exact (fval_norm_range _ NX)).
  rewrite fe_get_b32_ok, EX by exact NX. rewrite fe_is_odd_spec, EY by exact NY.
  destruct (sc_set_b32_ok (be_bytes 32 (xcoord (pmul k G))) (be_bytes_byte_list _ _) (be_bytes_length _ _)) as (KR & VR & OV).
  rewrite x32 in VR, OV by exact RX. fold (ecdsa_r k) in VR.
  destruct (sc_set_b32 (be_bytes 32 (xcoord (pmul k G)))) as [sigr ov]. cbn [fst snd] in *. subst ov.
  pose proof (sc_mul_ok sigr sec (proj1 KR) (proj1 KS)) as K1. pose proof (sc_mul_sv sigr sec (proj1 KR) (proj1 KS)) as V1.
  set (t1 := sc_mul sigr sec) in *. clearbody t1.
  pose proof (sc_add_ok t1 msg K1 KM) as K2. pose proof (sc_add_sv t1 msg K1 KM) as V2. set (t2 := sc_add t1 msg) in *. clearbody t2.
  destruct (sc_inverse_ok non) as [K3 V3]. set (t3 := sc_inverse non) in *. clearbody t3.
  pose proof (sc_mul_ok t3 t2 (proj1 K3) (proj1 K2)) as K4. pose proof (sc_mul_sv t3 t2 (proj1 K3) (proj1 K2)) as V4.
  set (t4 := sc_mul t3 t2) in *. clearbody t4.
  assert (E4 : sv t4 = ecdsa_s d m k).
  { apply toN_small_inj; [apply (sc_ok_range _ K4)|apply ecdsa_s_range|]. rewrite V4, V3, V2, V1, VR, EN, ES. unfold ecdsa_s. push_toN. rewrite EM. ring. }
  pose proof (cond_negate_high t4 K4) as C. pose proof (sc_is_high_spec t4 (proj1 K4)) as HI. cbv zeta in C.
  destruct (sc_cond_negate t4 (b2z (sc_is_high t4))) as [t5 q]. cbn [fst] in *. rewrite E4 in C, HI. destruct C as [K5 V5].
  fold (ecdsa_high d m k) in V5, HI. fold (ecdsa_low_s d m k) in V5.
  split; [exact KR|]. split; [exact K5|]. split; [exact VR|]. split; [exact V5|]. rewrite HI.
  split; [rewrite recid_bits; reflexivity|]. rewrite !sc_is_zero_spec, VR, V5 by (apply KR || apply K5). f_equal. f_equal.
  unfold ecdsa_low_s. destruct half_pos as [H1 H2]. pose proof (ecdsa_s_range d m k) as RS. unfold ecdsa_high.
  destruct (Z.ltb_spec (n / 2) (ecdsa_s d m k)); [|reflexivity].
  destruct (Z.eqb_spec (n - ecdsa_s d m k) 0), (Z.eqb_spec (ecdsa_s d m k) 0); (reflexivity || (exfalso; lia)).
Qed.

(** ** The attempt loop *)
Definition rejected (nonce : Z -> option (list Z)) (d m c : Z) : Prop := exists l, nonce c = Some l /\ ~ nonce_usable d m l.
Lemma w32_mod x : w32 x = x mod 2 ^ 32. Proof. reflexivity. Qed.
Lemma cnt_step c j : (w32 (c + 1) + j) mod 2 ^ 32 = (c + (1 + j)) mod 2 ^ 32.
Proof. rewrite w32_mod, Zplus_mod_idemp_l. f_equal. ring. Qed.

Lemma usable_iff d m l : bytes_n 32 l ->
  (nonce_usable d m l <-> ((0 <? be_val l) && (be_val l <? n)) && (negb (ecdsa_r (be_val l) =? 0) && negb (ecdsa_s d m (be_val l) =? 0)) = true).
Proof.
  intros [H L]. pose proof (be_val_32 l H L) as R. unfold nonce_usable.
  destruct (Z.ltb_spec 0 (be_val l)), (Z.ltb_spec (be_val l) n), (Z.eqb_spec (ecdsa_r (be_val l)) 0), (Z.eqb_spec (ecdsa_s d m (be_val l)) 0); cbn [andb negb];
    (split; [intros (? & ? & ?); (reflexivity || (exfalso; lia) || congruence)|intros E; (discriminate E || (split; [lia|tauto]))]).
Qed.


Lemma cnt_0 c : 0 <= c < 2 ^ 32 -> (c + 0) mod 2 ^ 32 = c.
Proof. intros H. rewrite Z.add_0_r. now apply Z.mod_small. Qed.
Lemma cnt_S c j : (w32 (c + 1) + Z.of_nat j) mod 2 ^ 32 = (c + Z.of_nat (S j)) mod 2 ^ 32.
Proof. rewrite cnt_step. f_equal. lia. Qed.
Lemma w32_range x : 0 <= w32 x < 2 ^ 32. Proof. apply Z.mod_pos_bound. reflexivity. Qed.

(** What an attempt loop started at counter [c] ends with. *)
Definition loop_end (nonce : Z -> option (list Z)) (d m c : Z) (i : nat) (ret : bool) (r s recid : Z) : Prop :=
  (forall j, (j < i)%nat -> rejected nonce d m ((c + Z.of_nat j) mod 2 ^ 32)) /\
  ((nonce ((c + Z.of_nat i) mod 2 ^ 32) = None /\ ret = false) \/
   (exists l, nonce ((c + Z.of_nat i) mod 2 ^ 32) = Some l /\ nonce_usable d m l /\ ret = true /\
      r = ecdsa_r (be_val l) /\ s = ecdsa_low_s d m (be_val l) /\ recid = ecdsa_recid d m (be_val l))).
Lemma loop_end_step nonce d m c i ret r s recid : 0 <= c < 2 ^ 32 -> rejected nonce d m c ->
  loop_end nonce d m (w32 (c + 1)) i ret r s recid -> loop_end nonce d m c (S i) ret r s recid.
Proof.
  intros Hc R [A B]. split.
  - intros [|j] Hj; [rewrite cnt_0 by exact Hc; exact R|]. rewrite <- cnt_S. apply A. lia.
  - rewrite <- cnt_S. exact B.
Qed.

Lemma sign_loop_fwd gctx sec msg msg32 key nf nd d m : gen_ctx_ok gctx -> sc_ok sec -> sc_ok msg -> sv sec = d -> toN (sv msg) = toN m -> nonce_bytes nf msg32 key nd ->
  forall fuel count r0 s0 i0 ret r s recid, 0 <= count < 2 ^ 32 -> sc_ok r0 -> sc_ok s0 ->
  sign_loop fuel gctx sec msg msg32 key nf nd count (r0, s0, i0) = Some (ret, (r, s, recid)) ->
  sc_ok r /\ sc_ok s /\ exists i, loop_end (nf msg32 key None nd) d m count i ret (sv r) (sv s) recid.
Proof.
  intros HG KS KM ES EM NB. induction fuel as [|fuel IH]; intros count r0 s0 i0 ret r s recid Hc K1 K2; cbn [sign_loop]; [discriminate|].
  destruct (nf msg32 key None nd count) as [l|] eqn:EN.
  - pose proof (NB _ _ EN) as BL. destruct (sc_set_b32_seckey_ok l (proj1 BL) (proj2 BL)) as (KN & VN & OK). pose proof (usable_iff d m l BL) as U.
    destruct (sc_set_b32_seckey l) as [non valid]. cbn [fst snd] in *. rewrite <- OK in U. destruct valid.
    + symmetry in OK. apply andb_true_iff in OK as [O1 O2]. apply Z.ltb_lt in O1, O2. rewrite Z.mod_small in VN by lia.
      pose proof (sig_sign_ok gctx sec msg non d m (be_val l) HG KS KM KN ES EM VN ltac:(lia)) as S.
      destruct (ecdsa_sig_sign gctx sec msg non) as [[[ok r1] s1] rec1]. destruct S as (KR & KSS & ER & ESS & EREC & EOK). cbn [andb] in U. rewrite <- EOK in U.
      destruct ok.
      * intros E. injection E as <- <- <- <-. split; [exact KR|]. split; [exact KSS|]. exists 0%nat. split; [intros j Hj; lia|]. right.
        change (Z.of_nat 0) with 0. rewrite cnt_0 by exact Hc. exists l. split; [exact EN|]. split; [now apply U|]. auto.
      * intros E. destruct (IH _ _ _ _ _ _ _ _ (w32_range _) KR KSS E) as (A & B & i & L). split; [exact A|]. split; [exact B|]. exists (S i).
        apply loop_end_step; [exact Hc| |exact L]. exists l. split; [exact EN|]. intros N. apply U in N. discriminate.
    + intros E. destruct (IH _ _ _ _ _ _ _ _ (w32_range _) K1 K2 E) as (A & B & i & L). split; [exact A|]. split; [exact B|]. exists (S i).
      apply loop_end_step; [exact Hc| |exact L]. exists l. split; [exact EN|]. intros N. apply U in N. discriminate.
  - intros E. injection E as <- <- <- <-. split; [exact K1|]. split; [exact K2|]. exists 0%nat. split; [intros j Hj; lia|]. left.
    change (Z.of_nat 0) with 0. rewrite cnt_0 by exact Hc. auto.
Qed.

(** The loop ends as soon as there is a usable nonce or the nonce function fails. *)
Definition loop_stops (nonce : Z -> option (list Z)) (d m c : Z) (i : nat) : Prop :=
  nonce ((c + Z.of_nat i) mod 2 ^ 32) = None \/ exists l, nonce ((c + Z.of_nat i) mod 2 ^ 32) = Some l /\ nonce_usable d m l.
Lemma sign_loop_stops gctx sec msg msg32 key nf nd d m : gen_ctx_ok gctx -> sc_ok sec -> sc_ok msg -> sv sec = d -> toN (sv msg) = toN m -> nonce_bytes nf msg32 key nd ->
  forall i fuel count st, 0 <= count < 2 ^ 32 -> (i < fuel)%nat -> loop_stops (nf msg32 key None nd) d m count i ->
  exists res, sign_loop fuel gctx sec msg msg32 key nf nd count st = Some res.
Proof.
  intros HG KS KM ES EM NB. induction i as [|i IH]; intros fuel count st Hc Hf L; (destruct fuel as [|fuel]; [lia|]); cbn [sign_loop].
  - unfold loop_stops in L. change (Z.of_nat 0) with 0 in L. rewrite cnt_0 in L by exact Hc.
    destruct L as [-> |(l & EL & U)]; [eexists; reflexivity|]. rewrite EL. pose proof (NB _ _ EL) as BL.
    destruct (sc_set_b32_seckey_ok l (proj1 BL) (proj2 BL)) as (KN & VN & OK). pose proof (proj1 (usable_iff d m l BL) U) as U'.
    apply andb_true_iff in U' as [U1 U2]. rewrite U1 in OK.
    destruct (sc_set_b32_seckey l) as [non valid]. cbn [fst snd] in *. subst valid.
    destruct U as (R & _). rewrite Z.mod_small in VN by lia.
    pose proof (sig_sign_ok gctx sec msg non d m (be_val l) HG KS KM KN ES EM VN R) as S.
    destruct (ecdsa_sig_sign gctx sec msg non) as [[[ok r1] s1] rec1]. destruct S as (_ & _ & _ & _ & _ & ->). rewrite U2. eexists; reflexivity.
  - destruct (nf msg32 key None nd count) as [l|] eqn:EN; [|eexists; reflexivity].
    assert (L' : loop_stops (nf msg32 key None nd) d m (w32 (count + 1)) i) by (unfold loop_stops; rewrite cnt_S; exact L).
    destruct (sc_set_b32_seckey l) as [non valid]. destruct valid.
    + destruct (ecdsa_sig_sign gctx sec msg non) as [[[ok r1] s1] rec1]. destruct ok; [eexists; reflexivity|]. apply IH; [apply w32_range|lia|exact L'].
    + apply IH; [apply w32_range|lia|exact L'].
Qed.

Lemma int_cmov_b r c : 0 <= r < 4 -> int_cmov r 0 (b2z c) = if c then 0 else r.
Proof.
  intros H. unfold int_cmov. cbv zeta. rewrite Z.land_0_l, Z.lor_0_r. destruct c; cbn [b2z].
  - change (w32 (1 + (2 ^ 32 - 1))) with 0. apply Z.land_0_r.
  - change (w32 (0 + (2 ^ 32 - 1))) with (Z.ones 32). rewrite Z.land_ones by lia. apply Z.mod_small. lia.
Qed.
Lemma ecdsa_recid_range d m k : 0 <= ecdsa_recid d m k < 4.
Proof. unfold ecdsa_recid. destruct (_ <=? _), (xorb _ _); lia. Qed.

(** The scalar signed with: 1 stands in for an invalid key. *)
Definition sign_d (key : list Z) : Z := if (0 <? be_val key) && (be_val key <? n) then be_val key else 1.
Lemma sign_inner_setup key : bytes_n 32 key ->
  let '(sec, ok) := sc_set_b32_seckey key in
  sc_ok (sc_cmov sec sc_one (b2z (negb ok))) /\ sv (sc_cmov sec sc_one (b2z (negb ok))) = sign_d key /\ ok = (0 <? be_val key) && (be_val key <? n).
Proof.
  intros H. destruct (sc_set_b32_seckey_ok key (proj1 H) (proj2 H)) as (K & V & O). destruct (seckey_cases key H) as (_ & C).
  destruct (sc_set_b32_seckey key) as [sec ok]. cbn [fst snd] in *. rewrite sc_cmov_b by (exact K || apply sc_one_ok). unfold sign_d. rewrite <- O.
  destruct C as [(VV & -> & E)|(VV & ->)]; cbn [negb].
  - auto.
  - split; [apply sc_one_ok|]. split; [apply sc_one_ok|reflexivity].
Qed.
Lemma sign_inner_ok fuel gctx msg32 key nf nd ret r s recid : gen_ctx_ok gctx -> bytes_n 32 msg32 -> bytes_n 32 key -> nonce_bytes (the_nonce nf) msg32 key nd ->
  ecdsa_sign_inner fuel gctx msg32 key nf nd = Some (ret, r, s, recid) ->
  sc_ok r /\ sc_ok s /\
  exists i r1 s1 recid1 ret1, loop_end (the_nonce nf msg32 key None nd) (sign_d key) (be_val msg32) 0 i ret1 r1 s1 recid1 /\
    ret = ret1 && ((0 <? be_val key) && (be_val key <? n)) /\
    (ret = true -> sv r = r1 /\ sv s = s1 /\ recid = recid1) /\ (ret = false -> r = sc_zero /\ s = sc_zero /\ recid = 0).
Proof.
  intros HG HM HK NB. unfold ecdsa_sign_inner. fold (the_nonce nf). pose proof (sign_inner_setup key HK) as S.
  destruct (sc_set_b32_seckey key) as [sec ok]. destruct S as (KS & ES & EO). set (sec' := sc_cmov sec sc_one _) in *. clearbody sec'.
  destruct (sc_set_b32_case msg32 HM) as (KM & EM & _). set (msg := fst (sc_set_b32 msg32)) in *. clearbody msg. cbv zeta.
  destruct (sign_loop fuel gctx sec' msg msg32 key (the_nonce nf) nd 0 (sc_zero, sc_zero, 0)) as [[ret1 [[r1 s1] rec1]]|] eqn:EL; [|discriminate].
  destruct (sign_loop_fwd gctx sec' msg msg32 key (the_nonce nf) nd (sign_d key) (be_val msg32) HG KS KM ES
    ltac:(rewrite EM; apply toN_mod) NB fuel 0 sc_zero sc_zero 0 ret1 r1 s1 rec1 ltac:(split; [lia|reflexivity]) (proj1 sc_zero_ok) (proj1 sc_zero_ok) EL) as (K1 & K2 & i & LE).
  rewrite !sc_cmov_b by (assumption || apply sc_zero_ok). intros E. injection E as <- <- <- <-.
  assert (KZ := proj1 sc_zero_ok).
  split; [destruct (negb _); assumption|]. split; [destruct (negb _); assumption|].
  exists i, (sv r1), (sv s1), rec1, ret1. split; [exact LE|]. rewrite <- EO. split; [reflexivity|].
  destruct LE as [_ [[_ ->]|(l & _ & _ & -> & _ & _ & ER)]].
  - cbn [andb negb b2z]. split; [discriminate|]. intros _. split; [reflexivity|]. split; [reflexivity|].
    unfold int_cmov. cbv zeta. change (w32 (1 + (2 ^ 32 - 1))) with 0. rewrite Z.land_0_r, Z.land_0_l. reflexivity.
  - rewrite int_cmov_b by (rewrite ER; apply ecdsa_recid_range). cbn [andb]. destruct ok; cbn [negb]; (split; [intros E; try discriminate E; auto|intros E; try discriminate E; auto]).
Qed.
Lemma sign_inner_stops fuel gctx msg32 key nf nd i : gen_ctx_ok gctx -> bytes_n 32 msg32 -> bytes_n 32 key -> nonce_bytes (the_nonce nf) msg32 key nd ->
  (i < fuel)%nat -> loop_stops (the_nonce nf msg32 key None nd) (sign_d key) (be_val msg32) 0 i ->
  exists res, ecdsa_sign_inner fuel gctx msg32 key nf nd = Some res.
Proof.
  intros HG HM HK NB Hf L. unfold ecdsa_sign_inner. fold (the_nonce nf). pose proof (sign_inner_setup key HK) as S.
  destruct (sc_set_b32_seckey key) as [sec ok]. destruct S as (KS & ES & EO). set (sec' := sc_cmov sec sc_one _) in *. clearbody sec'.
  destruct (sc_set_b32_case msg32 HM) as (KM & EM & _). set (msg := fst (sc_set_b32 msg32)) in *. clearbody msg. cbv zeta.
  destruct (sign_loop_stops gctx sec' msg msg32 key (the_nonce nf) nd (sign_d key) (be_val msg32) HG KS KM ES
    ltac:(rewrite EM; apply toN_mod) NB i fuel 0 (sc_zero, sc_zero, 0) ltac:(split; [lia|reflexivity]) Hf L) as [[ret1 [[r1 s1] rec1]] E].
  rewrite E. eexists. reflexivity.
Qed.

(** ** The API function *)
Lemma ecdsa_sign_ok fuel ctx init msg key nf nd res : gen_ctx_ok (c_gen ctx) -> g_built (c_gen ctx) = true -> bytes_n 32 msg -> bytes_n 32 key ->
  nonce_bytes (the_nonce nf) msg key nd -> ecdsa_sign fuel ctx (Some init) (Some msg) (Some key) nf nd = Some res ->
  exists i, (forall j, (j < i)%nat -> rejected (the_nonce nf msg key None nd) (sign_d key) (be_val msg) (Z.of_nat j mod 2 ^ 32)) /\
   ((exists l sig, the_nonce nf msg key None nd (Z.of_nat i mod 2 ^ 32) = Some l /\ nonce_usable (be_val key) (be_val msg) l /\
       1 <= be_val key < n /\ sig_holds sig (ecdsa_r (be_val l)) (ecdsa_low_s (be_val key) (be_val msg) (be_val l)) /\ res = mkres 1 0 (Some sig)) \/
    ((the_nonce nf msg key None nd (Z.of_nat i mod 2 ^ 32) = None \/ ~ 1 <= be_val key < n) /\ res = mkres 0 0 (Some (repeat 0 64)))).
Proof.
  intros HG HB HM HK NB. unfold ecdsa_sign. rewrite HB. cbn [negb].
  destruct (ecdsa_sign_inner fuel (c_gen ctx) msg key nf nd) as [[[[ret r] s] recid]|] eqn:E; [|discriminate]. intros ER. apply Some_inj in ER. subst res.
  destruct (sign_inner_ok _ _ _ _ _ _ _ _ _ _ HG HM HK NB E) as (K1 & K2 & i & r1 & s1 & rec1 & ret1 & [LR LE] & RET & T & FF).
  exists i. split; [exact LR|]. change (0 + Z.of_nat i) with (Z.of_nat i) in LE.
  unfold sign_d in LE. destruct (Z.ltb_spec 0 (be_val key)) as [P1|P1]; destruct (Z.ltb_spec (be_val key) n) as [P2|P2]; cbn [andb] in *.
  2-4: rewrite andb_false_r in RET; subst ret; destruct (FF eq_refl) as (-> & -> & _); right; (split; [right; lia|reflexivity]).
  destruct LE as [[LN ->]|(l & LN & U & -> & E1 & E2 & E3)]; cbn [andb] in RET; subst ret.
  - right. split; [now left|]. destruct (FF eq_refl) as (-> & -> & _). reflexivity.
  - left. destruct (T eq_refl) as (T1 & T2 & _). exists l, (signature_save r s). split; [exact LN|]. split; [exact U|]. split; [lia|]. split; [|reflexivity].
    rewrite <- E1, <- E2, <- T1, <- T2. now apply sig_save_ok.
Qed.
Lemma ecdsa_sign_stops fuel ctx init msg key nf nd i : gen_ctx_ok (c_gen ctx) -> g_built (c_gen ctx) = true -> bytes_n 32 msg -> bytes_n 32 key ->
  nonce_bytes (the_nonce nf) msg key nd -> (i < fuel)%nat -> loop_stops (the_nonce nf msg key None nd) (sign_d key) (be_val msg) 0 i ->
  exists res, ecdsa_sign fuel ctx (Some init) (Some msg) (Some key) nf nd = Some res.
Proof.
  intros HG HB HM HK NB Hf L. unfold ecdsa_sign. rewrite HB. cbn [negb].
  destruct (sign_inner_stops fuel (c_gen ctx) msg key nf nd i HG HM HK NB Hf L) as [[[[ret r] s] recid] ->]. eexists. reflexivity.
Qed.

(** Sign, then verify with the public key of the secret key. *)
Lemma sign_then_verify fuel ctx ctx' init init' msg key nf nd sig pk : gen_ctx_ok (c_gen ctx) -> g_built (c_gen ctx) = true ->
  gen_ctx_ok (c_gen ctx') -> g_built (c_gen ctx') = true -> bytes_n 32 msg -> bytes_n 32 key -> nonce_bytes (the_nonce nf) msg key nd ->
  ecdsa_sign fuel ctx (Some init) (Some msg) (Some key) nf nd = Some (mkres 1 0 (Some sig)) ->
  ec_pubkey_create ctx' (Some init') (Some key) = mkres 1 0 (Some pk) ->
  ecdsa_verify (Some sig) (Some msg) (Some pk) = mkres 1 0 tt.
Proof.
  intros HG HB HG' HB' HM HK NB HS HP.
  destruct (pubkey_create_ok ctx' init' key HG' HB' HK) as (pk' & E1 & _ & C). rewrite HP in E1, C. cbn [r_out r_ret] in E1, C. injection E1 as <-.
  destruct C as [(RK & _ & PH)|(_ & E & _)]; [|discriminate E].
  destruct (ecdsa_sign_ok _ _ _ _ _ _ _ _ HG HB HM HK NB HS) as (i & _ & [(l & sig' & _ & (U1 & U2 & U3) & _ & SH & E)|(_ & E)]); [|discriminate E].
  apply (f_equal r_out) in E. cbn [r_out] in E. injection E as <-.
  destruct (ecdsa_verify_ok _ _ _ _ _ _ SH HM PH) as [(V & _)|(_ & V)]; [exact V|exfalso]. apply V. split.
  - now apply ecdsa_low_s_range.
  - now apply sign_valid.
Qed.
