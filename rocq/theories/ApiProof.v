(** Facts about API objects and the key functions. *)
Require Import ZArith List Bool Lia.
From Verif Require Import NumTheory Spec SpecApi Primes ZmField Curve Word Bytes.
From Verif Require Import FieldModel FieldMul FieldProof FieldProof2 FieldBytes FieldOps.
From Verif Require Import ScalarModel ScalarProof ScalarProof2 ScalarMul.
From Verif Require Import GroupModel GroupProof GroupProof2 GroupProof3 GroupProof4 GroupProof5.
From Verif Require Import HashModel GenModel GenProof EcmultModel EcmultProof EcmultProof2 EcdsaModel ApiModel.
Import ListNotations.
Local Open Scope Z_scope.

Lemma le_enc_eq k : forall v, le_enc k v = le_bytes k v.
Proof.
  induction k as [|k IH]; intros v; unfold le_enc in *; cbn [be_bytes le_bytes]; [reflexivity|].
  rewrite rev_app_distr, IH. reflexivity.
Qed.
Lemma pubkey_holds_eq pk x y : pubkey_holds pk (Aff x y) <-> on_curve (Aff x y) /\ pk = point_bytes x y.
Proof. unfold pubkey_holds, point_bytes. rewrite !le_enc_eq. reflexivity. Qed.

(** No point has x = 0: such a point would have order 3. *)
Lemma x_neq_0 x y : on_curve (Aff x y) -> x <> 0.
Proof.
  intros OC ->. pose proof (y_neq_0 _ _ OC) as YN. pose proof OC as (_ & RY & _).
  assert (E : padd (Aff 0 y) (Aff 0 y) = pneg (Aff 0 y)).
  { unfold padd, pneg. rewrite Z.eqb_refl. cbn [andb].
    destruct ((y + y) mod p =? 0) eqn:E0.
    - exfalso. apply Z.eqb_eq in E0.
      pose proof (order_two (Aff 0 y) OC) as OT. unfold padd in OT. rewrite Z.eqb_refl in OT. cbn [andb] in OT.
      rewrite E0 in OT. cbn [Z.eqb] in OT. specialize (OT eq_refl). discriminate OT.
    - cbv zeta. f_equal. }
  assert (E3 : pmul 3 (Aff 0 y) = Inf).
  { change 3 with (2 + 1). rewrite pmul_add by assumption. change (pmul 2 (Aff 0 y)) with (padd (Aff 0 y) (Aff 0 y)). rewrite E, pmul_1.
    now apply padd_neg_l. }
  destruct (all_points_multiples_of_G _ OC) as (k & Rk & EK). rewrite EK, <- pmul_mul in E3 by exact on_curve_G.
  apply pmul_G_Inf in E3. 
  assert (K0 : k mod n = 0).
  { apply Z.mod_divide in E3; [|clear; intros E0; discriminate E0]. apply Znumtheory.Gauss in E3.
    - apply Z.mod_divide; [clear; intros E0; discriminate E0|exact E3].
    - apply Znumtheory.rel_prime_sym, Znumtheory.rel_prime_le_prime; [exact prime_n|split; [discriminate|reflexivity]]. }
  rewrite Z.mod_small in K0 by assumption. subst k. discriminate EK.
Qed.

(** ** Public key objects *)
Lemma pubkey_holds_oc pk Q : pubkey_holds pk Q -> on_curve Q /\ Q <> Inf.
Proof. destruct Q as [|x y]; [intros []|]. intros [H _]. split; [exact H|discriminate]. Qed.
Lemma pubkey_holds_bytes pk Q : pubkey_holds pk Q -> bytes_n 64 pk.
Proof.
  destruct Q as [|x y]; [intros []|]. rewrite pubkey_holds_eq. intros [_ ->].
  split; [apply point_bytes_byte_list|apply point_bytes_length].
Qed.
Lemma pubkey_holds_fun pk Q R : pubkey_holds pk Q -> pubkey_holds pk R -> Q = R.
Proof.
  destruct Q as [|x y]; [intros []|]. destruct R as [|x' y']; [intros _ []|]. rewrite !pubkey_holds_eq. intros [H ->] [H' E].
  now destruct (point_bytes_inj _ _ _ _ H H' E) as [-> ->].
Qed.
Lemma pubkey_holds_inj pk pk' Q : pubkey_holds pk Q -> pubkey_holds pk' Q -> pk = pk'.
Proof. destruct Q as [|x y]; [intros []|]. intros [_ ->] [_ ->]. reflexivity. Qed.

Lemma pubkey_load_ok pk Q : pubkey_holds pk Q ->
  fst (pubkey_load pk) = true /\ ge_rep f1 (snd (pubkey_load pk)) Q /\
  fe_norm (gx (snd (pubkey_load pk))) /\ fe_norm (gy (snd (pubkey_load pk))).
Proof.
  destruct Q as [|x y]; [intros []|]. rewrite pubkey_holds_eq. intros [OC ->].
  destruct (ge_from_bytes_point x y OC) as (R & N1 & N2). unfold pubkey_load. cbv zeta. cbn [fst snd].
  split; [|tauto]. destruct (fe_is_zero _) eqn:E; [exfalso|reflexivity].
  apply (fe_is_zero_spec _ N1) in E. destruct (ge_rep1_aff _ _ _ R) as (_ & E1 & _). rewrite E1 in E.
  apply toF_0_iff in E. rewrite Z.mod_small in E by apply OC. exact (x_neq_0 _ _ OC E).
Qed.
Lemma pubkey_save_ok g Q : ge_rep f1 g Q -> Q <> Inf -> pubkey_holds (pubkey_save g) Q.
Proof.
  intros H HQ. destruct Q as [|x y]; [congruence|]. rewrite pubkey_holds_eq. split; [exact (ge_rep_oc _ _ _ H)|].
  unfold pubkey_save. now apply ge_to_bytes_ok.
Qed.
Lemma pubkey_save_length g : length (pubkey_save g) = 64%nat.
Proof. unfold pubkey_save, ge_to_bytes. cbv zeta. now rewrite app_length, !fes_bytes_length. Qed.
Lemma zeros_not_pubkey Q : ~ pubkey_holds (zeros 64) Q.
Proof.
  intros H. destruct (pubkey_load_ok _ _ H) as (L & _). revert L. vm_compute. discriminate.
Qed.

(** ** Secret keys *)
Lemma seckey_cases key : bytes_n 32 key ->
  sc_ok (fst (sc_set_b32_seckey key)) /\
  ((seckey_valid key /\ snd (sc_set_b32_seckey key) = true /\ sv (fst (sc_set_b32_seckey key)) = be_val key) \/
   (~ seckey_valid key /\ snd (sc_set_b32_seckey key) = false)).
Proof.
  intros [H L]. destruct (sc_set_b32_seckey_ok key H L) as (K & V & O). split; [exact K|].
  destruct (snd (sc_set_b32_seckey key)); symmetry in O.
  - left. apply andb_true_iff in O as [O1 O2]. apply Z.ltb_lt in O1, O2. split; [split; [split; assumption|lia]|]. split; [reflexivity|].
    rewrite V. apply Z.mod_small. lia.
  - right. split; [|reflexivity]. intros [_ [V1 V2]]. apply andb_false_iff in O as [O|O]; apply Z.ltb_ge in O; lia.
Qed.
Lemma sc_one_ok : sc_ok sc_one /\ sv sc_one = 1.
Proof. split; [split; [repeat split; discriminate|reflexivity]|reflexivity]. Qed.
Lemma sc_zero_ok : sc_ok sc_zero /\ sv sc_zero = 0.
Proof. split; [split; [repeat split; discriminate|reflexivity]|reflexivity]. Qed.
Lemma sc_cmov_b a b c : sc_ok a -> sc_ok b -> sc_cmov a b (b2z c) = if c then b else a.
Proof. intros [A _] [B _]. rewrite sc_cmov_ok by (try assumption; destruct c; auto). now destruct c. Qed.
Lemma memczero_true l : memczero l 1 = repeat 0 (length l).
Proof.
  unfold memczero. cbv zeta. change (255 - w8 (- w8 1)) with 0.
  induction l as [|b l IH]; cbn [map length repeat]; [reflexivity|]. rewrite Z.land_0_r, IH. reflexivity.
Qed.
Lemma memczero_false l : byte_list l -> memczero l 0 = l.
Proof.
  intros H. unfold memczero. cbv zeta. change (255 - w8 (- w8 0)) with (Z.ones 8).
  induction H as [|b l Hb Hl IH]; cbn [map]; [reflexivity|]. rewrite Z.land_ones, IH by lia. f_equal.
  unfold w8. change (2 ^ 8) with 256. rewrite !Z.mod_small by lia. reflexivity.
Qed.
Lemma sc_set_b32_case l : bytes_n 32 l ->
  sc_ok (fst (sc_set_b32 l)) /\ sv (fst (sc_set_b32 l)) = be_val l mod n /\
  ((be_val l < n /\ snd (sc_set_b32 l) = false /\ sv (fst (sc_set_b32 l)) = be_val l) \/ (n <= be_val l /\ snd (sc_set_b32 l) = true)).
Proof.
  intros [H L]. destruct (sc_set_b32_ok l H L) as (K & V & O). split; [exact K|]. split; [exact V|]. pose proof (be_val_32 l H L) as R.
  rewrite O. destruct (n <=? be_val l) eqn:E.
  - right. apply Z.leb_le in E. auto.
  - left. apply Z.leb_gt in E. rewrite V. rewrite Z.mod_small by lia. auto.
Qed.

(** ** C12 *)
Lemma seckey_verify_ok key : bytes_n 32 key ->
  r_ill (ec_seckey_verify (Some key)) = 0 /\ (r_ret (ec_seckey_verify (Some key)) = 0 \/ r_ret (ec_seckey_verify (Some key)) = 1) /\
  (r_ret (ec_seckey_verify (Some key)) = 1 <-> 1 <= be_val key < n).
Proof.
  intros H. destruct (seckey_cases key H) as [_ [(V & E & _)|(V & E)]]; unfold ec_seckey_verify; cbn [r_ret r_ill]; rewrite E; cbn [b2z].
  - split; [reflexivity|]. split; [now right|]. split; [intros _; apply V|reflexivity].
  - split; [reflexivity|]. split; [now left|]. split; [discriminate|]. intros R. exfalso. apply V. split; assumption.
Qed.
Lemma pmul_G_nInf d : 1 <= d < n -> pmul d G <> Inf.
Proof. intros R E. apply pmul_G_Inf in E. rewrite Z.mod_small in E by lia. lia. Qed.

Lemma pubkey_create_helper_ok gctx key : gen_ctx_ok gctx -> bytes_n 32 key ->
  let '(ret, s, q) := ec_pubkey_create_helper gctx key in
  sc_ok s /\ ge_rep f1 q (pmul (sv s) G) /\ pmul (sv s) G <> Inf /\
  ((seckey_valid key /\ ret = true /\ sv s = be_val key) \/ (~ seckey_valid key /\ ret = false /\ sv s = 1)).
Proof.
  intros HG H. destruct (seckey_cases key H) as [K C]. unfold ec_pubkey_create_helper.
  destruct (sc_set_b32_seckey key) as [s ret]. cbn [fst snd] in *. cbv zeta.
  rewrite sc_cmov_b by (try assumption; apply sc_one_ok).
  destruct C as [(V & -> & E)|(V & ->)]; cbn [negb].
  - split; [exact K|]. split; [apply ge_set_gej_ok, ecmult_gen_ok; assumption|]. split; [rewrite E; apply pmul_G_nInf; apply V|]. left. auto.
  - destruct sc_one_ok as [K1 E1]. split; [exact K1|]. split; [apply ge_set_gej_ok, ecmult_gen_ok; assumption|].
    split; [rewrite E1; apply pmul_G_nInf; split; [lia|reflexivity]|]. right. auto.
Qed.
Lemma pubkey_create_ok ctx pk0 key : gen_ctx_ok (c_gen ctx) -> g_built (c_gen ctx) = true -> bytes_n 32 key ->
  exists pk, r_out (ec_pubkey_create ctx (Some pk0) (Some key)) = Some pk /\ r_ill (ec_pubkey_create ctx (Some pk0) (Some key)) = 0 /\
   ((1 <= be_val key < n /\ r_ret (ec_pubkey_create ctx (Some pk0) (Some key)) = 1 /\ pubkey_holds pk (pmul (be_val key) G)) \/
    (~ 1 <= be_val key < n /\ r_ret (ec_pubkey_create ctx (Some pk0) (Some key)) = 0 /\ pk = zeros 64)).
Proof.
  intros HG HB H. pose proof (pubkey_create_helper_ok (c_gen ctx) key HG H) as P.
  unfold ec_pubkey_create. rewrite HB. cbn [negb]. destruct (ec_pubkey_create_helper _ _) as [[ret s] q]. destruct P as (K & R & NI & C).
  cbn [r_out r_ill r_ret]. eexists. split; [reflexivity|]. split; [reflexivity|].
  pose proof (pubkey_save_ok _ _ R NI) as PS.
  destruct C as [(V & -> & E)|(V & -> & E)]; cbn [negb b2z].
  - left. split; [apply V|]. split; [reflexivity|]. rewrite memczero_false by apply (pubkey_holds_bytes _ _ PS). now rewrite <- E.
  - right. split; [intros R1; apply V; split; assumption|]. split; [reflexivity|]. rewrite memczero_true, pubkey_save_length. reflexivity.
Qed.
