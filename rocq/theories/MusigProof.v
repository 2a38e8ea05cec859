(** MuSig2: objects, key aggregation and tweaking. *)
Require Import ZArith List Bool Lia Field String.
From Verif Require Import NumTheory Spec SpecApi SpecHash SpecBip340 SpecMusig Primes ZmField Curve NField Word Bytes.
From Verif Require Import FieldModel FieldMul FieldProof FieldProof2 FieldBytes FieldOps.
From Verif Require Import ScalarModel ScalarProof ScalarProof2 ScalarMul.
From Verif Require Import GroupModel GroupProof GroupProof2 GroupProof3 GroupProof4 GroupProof5.
From Verif Require Import HashModel HashProof GenModel GenProof EcmultModel EcmultProof EcmultProof2 EcdsaModel ApiModel ApiVocab ApiProof ApiProof2 ApiProof3 EcdsaProof EcdsaProof2 KeyProps KeyProps2 EcdhProof.
From Verif Require Import ExtrakeysModel ExtrakeysProof SchnorrModel SchnorrProof EllswiftProof2 MusigModel.
Import ListNotations.
Local Open Scope Z_scope.
Local Opaque p n.
Local Notation length := List.length.

Lemma mid_keyagglist : mid_check (sh_s musig_keyagglist_sha256) (ascii_bytes "KeyAgg list"%string) = true. Proof. vm_cast_no_check (eq_refl true). Qed.
Lemma mid_keyaggcoef : mid_check (sh_s musig_keyaggcoef_sha256) (ascii_bytes "KeyAgg coefficient"%string) = true. Proof. vm_cast_no_check (eq_refl true). Qed.
Lemma mid_musig_aux : mid_check (sh_s nonce_function_musig_sha256_tagged_aux) (ascii_bytes "MuSig/aux"%string) = true. Proof. vm_cast_no_check (eq_refl true). Qed.
Lemma mid_musig_nonce : mid_check (sh_s nonce_function_musig_sha256_tagged) (ascii_bytes "MuSig/nonce"%string) = true. Proof. vm_cast_no_check (eq_refl true). Qed.
Lemma mid_noncecoef : mid_check (sh_s musig_compute_noncehash_sha256_tagged) (ascii_bytes "MuSig/noncecoef"%string) = true. Proof. vm_cast_no_check (eq_refl true). Qed.
Lemma tagged_unfold tag m : tagged_hash tag m = SHA256 (SHA256 tag ++ SHA256 tag ++ m). Proof. reflexivity. Qed.
Local Opaque SHA256 be_bytes tagged_hash pmul.

(** ** Slices *)
Lemma take_drop a l o o' len : o = (length a + o')%nat -> take o len (a ++ l) = take o' len l.
Proof. intros ->. unfold take. now rewrite skipn_app, (skipn_all2 a) by lia; cbn [app]; replace (length a + o' - length a)%nat with o' by lia. Qed.
Lemma take_here a l len : length a = len -> take 0 len (a ++ l) = a.
Proof. intros <-. unfold take. cbn [skipn]. rewrite firstn_app, Nat.sub_diag, firstn_all. cbn [firstn]. apply app_nil_r. Qed.
Lemma take_all a len : length a = len -> take 0 len a = a.
Proof. intros <-. unfold take. cbn [skipn]. apply firstn_all. Qed.
Lemma take_length o len l : (o + len <= length l)%nat -> length (take o len l) = len.
Proof. intros H. unfold take. rewrite firstn_length, skipn_length. lia. Qed.
Lemma take_bytes o len l : byte_list l -> byte_list (take o len l).
Proof. intros H. apply byte_list_firstn, byte_list_skipn, H. Qed.
Lemma magic_eq a m : length a = length m -> a = m -> memcmp_var a m =? 0 = true.
Proof. intros L E. now apply memcmp_eq. Qed.

(** ** Points in objects *)
Lemma point64_length P : length (point64 P) = 64%nat.
Proof. destruct P; cbn [point64]; [apply repeat_length|]. unfold le_enc. now rewrite app_length, !rev_length, !be_bytes_length. Qed.
Lemma point64_bytes P : byte_list (point64 P).
Proof. destruct P; cbn [point64]; [apply byte_list_repeat; lia|]. unfold le_enc. apply byte_list_app. split; apply Forall_rev, be_bytes_byte_list. Qed.
Lemma point64_holds P : key_point P -> pubkey_holds (point64 P) P.
Proof. intros [OC NI]. destruct P as [|x y]; [congruence|]. split; [exact OC|reflexivity]. Qed.
Lemma holds_point64 pk P : pubkey_holds pk P -> key_point P /\ pk = point64 P.
Proof. destruct P as [|x y]; [intros []|]. intros [OC ->]. split; [split; [exact OC|discriminate]|reflexivity]. Qed.
Lemma load64 P : key_point P ->
  let g := ge_from_bytes (point64 P) in ge_rep f1 g P /\ fe_norm (gx g) /\ fe_norm (gy g) /\ pubkey_load (point64 P) = (true, g).
Proof.
  intros H. destruct (pubkey_load_ok _ _ (point64_holds _ H)) as (E & R & NX & NY). unfold pubkey_load in *. cbv zeta in *. cbn [fst snd] in *. rewrite E. auto.
Qed.
Lemma save64 g P : ge_rep f1 g P -> P <> Inf -> ge_to_bytes g = point64 P.
Proof. intros R NI. pose proof (pubkey_save_ok _ _ R NI) as H. apply holds_point64 in H as [_ H]. exact H. Qed.
Lemma ginf_iff t g P : ge_rep t g P -> (ginf g = true <-> P = Inf).
Proof. intros (_ & _ & _ & H). destruct P as [|x y]; [tauto|]. destruct H as (-> & _). split; discriminate. Qed.
Lemma save64_ext g P : ge_rep f1 g P -> ge_to_bytes_ext g = point64 P.
Proof.
  intros R. pose proof (ginf_iff _ _ _ R) as I. unfold ge_to_bytes_ext, ge_is_infinity. destruct (ginf g).
  - assert (P = Inf) as -> by now apply I. reflexivity.
  - apply save64; [exact R|]. intros E. apply I in E. discriminate.
Qed.
Lemma zeros64_not P : key_point P -> forallb (fun b => b =? 0) (point64 P) = false.
Proof.
  intros H. apply not_true_is_false. intros E. assert (K : point64 P = zeros 64).
  { unfold zeros. pose proof (point64_length P) as L. rewrite <- L. clear -E. induction (point64 P) as [|b l IH]; [reflexivity|]. cbn in *. apply andb_true_iff in E as [A B]. apply Z.eqb_eq in A. now rewrite A, <- IH. }
  pose proof (point64_holds _ H) as HH. rewrite K in HH. exact (zeros_not_pubkey _ HH).
Qed.
Lemma load64_ext P : on_curve P -> let g := ge_from_bytes_ext (point64 P) in ge_rep f1 g P /\ (P <> Inf -> fe_norm (gx g) /\ fe_norm (gy g)).
Proof.
  intros OC. destruct P as [|x y].
  - change (ge_from_bytes_ext (point64 Inf)) with ge_infinity. split; [apply ge_infinity_rep|congruence].
  - assert (KP : key_point (Aff x y)) by (split; [exact OC|discriminate]). cbv zeta. unfold ge_from_bytes_ext. rewrite (zeros64_not _ KP).
    destruct (load64 _ KP) as (R & NX & NY & _). auto.
Qed.
Lemma cbytes_length P : length (cbytes P) = 33%nat.
Proof. destruct P; cbn [cbytes]; [apply repeat_length|]. unfold enc_compressed. cbn [length]. now rewrite be_bytes_length. Qed.
Lemma cbytes_bytes P : byte_list (cbytes P).
Proof. destruct P; cbn [cbytes]; [apply byte_list_repeat; lia|apply enc_compressed_bytes]. Qed.
Lemma ser_ok g P : ge_rep f1 g P -> P <> Inf -> eckey_pubkey_serialize g true = Some (cbytes P).
Proof. intros R NI. destruct P as [|x y]; [congruence|]. exact (serialize_ok _ _ _ true R). Qed.
Lemma ser_ext_ok g P : ge_rep f1 g P -> musig_ge_serialize_ext g = cbytes P.
Proof.
  intros R. pose proof (ginf_iff _ _ _ R) as I. unfold musig_ge_serialize_ext, ge_is_infinity. destruct (ginf g).
  - assert (P = Inf) as -> by now apply I. reflexivity.
  - rewrite (ser_ok g P R); [reflexivity|]. intros E. apply I in E. discriminate.
Qed.
Lemma point_eqb_eq P Q : point_eqb P Q = true <-> P = Q.
Proof.
  destruct P, Q; cbn [point_eqb]; split; try discriminate; try reflexivity.
  - intros H. apply andb_true_iff in H as [A B]. apply Z.eqb_eq in A. apply Z.eqb_eq in B. now subst.
  - intros H. injection H as -> ->. now rewrite !Z.eqb_refl.
Qed.

(** ** Scalars in objects *)
Lemma sc_load v : 0 <= v < n -> sc_ok (fst (sc_set_b32 (be_bytes 32 v))) /\ sv (fst (sc_set_b32 (be_bytes 32 v))) = v.
Proof.
  intros H. assert (B : bytes_n 32 (be_bytes 32 v)) by apply be32_bytes. destruct (sc_set_b32_case _ B) as (K & E & _). split; [exact K|].
  rewrite E, be_bytes_32_val by (assert (n < 2 ^ 256) by reflexivity; lia). now apply Z.mod_small.
Qed.
Lemma sc_save s v : sc_ok s -> sv s = v -> sc_get_b32 s = be_bytes 32 v.
Proof. intros K <-. apply sc_get_b32_ok, K. Qed.
Lemma sc_mod_set l : bytes_n 32 l -> sc_ok (fst (sc_set_b32 l)) /\ sv (fst (sc_set_b32 l)) = be_val l mod n.
Proof. intros B. destruct (sc_set_b32_case _ B) as (K & E & _). auto. Qed.

(** ** The key aggregation cache *)
Definition cache_int (ci : keyagg_cache_internal) (Ps : list point) (c : aggctx) : Prop :=
  ge_rep f1 (ci_pk ci) (ac_Q c) /\ ac_Q c <> Inf /\ Forall key_point Ps /\ ge_rep f1 (ci_second_pk ci) (second_key Ps) /\
  ci_pks_hash ci = key_list_hash Ps /\ sc_ok (ci_tweak ci) /\ sv (ci_tweak ci) = ac_tacc c /\
  (ac_gacc c = 1 \/ ac_gacc c = -1) /\ ci_parity_acc ci = (if ac_gacc c =? 1 then 0 else 1).
Lemma second_key_oc Ps : Forall key_point Ps -> on_curve (second_key Ps).
Proof.
  intros H. unfold second_key. destruct Ps as [|P0 rest]; [exact I|]. destruct (find _ rest) as [P|] eqn:E; [|exact I].
  apply find_some in E as [E _]. inversion H as [|? ? _ H2]. subst. rewrite Forall_forall in H2. exact (proj1 (H2 _ E)).
Qed.
Lemma key_hash_length Ps : length (key_list_hash Ps) = 32%nat. Proof. exact (proj2 (tagged_bytes _ _)). Qed.
Lemma key_hash_bytes Ps : byte_list (key_list_hash Ps). Proof. exact (proj1 (tagged_bytes _ _)). Qed.
Lemma cache_save_ok ci Ps c : cache_int ci Ps c -> cache_holds (keyagg_cache_save ci) Ps c.
Proof.
  intros (RQ & NI & KP & R2 & EH & KT & ET & EG & EP). pose proof (ge_rep_oc _ _ _ RQ) as OC.
  split; [split; assumption|]. split; [exact KP|]. split; [exact EG|]. split; [rewrite <- ET; apply sc_ok_range, KT|].
  unfold keyagg_cache_save. rewrite (save64 _ _ RQ NI), (save64_ext _ _ R2), EH, EP, (sc_save _ _ KT ET).
  destruct (ac_gacc c =? 1); reflexivity.
Qed.
Lemma cache_load_ok cache Ps c : cache_holds cache Ps c ->
  exists ci, keyagg_cache_load cache = Some ci /\ cache_int ci Ps c /\ fe_norm (gx (ci_pk ci)) /\ fe_norm (gy (ci_pk ci)).
Proof.
  intros (KQ & KP & EG & RT & ->). pose proof (point64_length (ac_Q c)) as L1. pose proof (point64_length (second_key Ps)) as L2. pose proof (key_hash_length Ps) as L3.
  pose proof (be_bytes_length 32 (ac_tacc c)) as L4. unfold keyagg_cache_load.
  set (A := point64 (ac_Q c)) in *. set (B := point64 (second_key Ps)) in *. set (H := key_list_hash Ps) in *. set (T := be_bytes 32 (ac_tacc c)) in *.
  set (g := if ac_gacc c =? 1 then 0 else 1).
  assert (E0 : take 0 4 ([244; 173; 187; 223] ++ A ++ B ++ H ++ [g] ++ T) = keyagg_cache_magic) by reflexivity.
  assert (E1 : take 4 64 ([244; 173; 187; 223] ++ A ++ B ++ H ++ [g] ++ T) = A). { rewrite (take_drop _ _ 4 0) by reflexivity. now apply take_here. }
  assert (E2 : take 68 64 ([244; 173; 187; 223] ++ A ++ B ++ H ++ [g] ++ T) = B). { rewrite (take_drop _ _ 68 64), (take_drop A _ 64 0) by (reflexivity || lia). now apply take_here. }
  assert (E3 : take 132 32 ([244; 173; 187; 223] ++ A ++ B ++ H ++ [g] ++ T) = H). { rewrite (take_drop _ _ 132 128), (take_drop A _ 128 64), (take_drop B _ 64 0) by (reflexivity || lia). now apply take_here. }
  assert (E4 : take 165 32 ([244; 173; 187; 223] ++ A ++ B ++ H ++ [g] ++ T) = T). { rewrite (take_drop _ _ 165 161), (take_drop A _ 161 97), (take_drop B _ 97 33), (take_drop H _ 33 1), (take_drop [g] _ 1 0) by (reflexivity || lia). now apply take_all. }
  assert (E5 : nth 164 ([244; 173; 187; 223] ++ A ++ B ++ H ++ [g] ++ T) 0 = g). { rewrite app_nth2 by (cbn; lia). rewrite app_nth2 by (cbn [length]; lia). rewrite app_nth2 by (cbn [length]; lia). rewrite app_nth2 by (cbn [length]; lia). rewrite L1, L2, L3. reflexivity. }
  rewrite E0, E1, E2, E3, E4, E5. replace (memcmp_var keyagg_cache_magic keyagg_cache_magic =? 0) with true by reflexivity.
  eexists. split; [reflexivity|]. cbn [ci_pk]. destruct (load64 _ KQ) as (RQ & NX & NY & _). split; [|split; [exact NX|exact NY]].
  destruct (load64_ext _ (second_key_oc _ KP)) as (R2 & _). destruct (sc_load _ RT) as (KT & ET).
  unfold cache_int. cbn [ci_pk ci_second_pk ci_pks_hash ci_tweak ci_parity_acc]. split; [exact RQ|]. split; [exact (proj2 KQ)|]. split; [exact KP|]. split; [exact R2|].
  split; [reflexivity|]. split; [exact KT|]. split; [exact ET|]. split; [exact EG|]. unfold g. destruct (ac_gacc c =? 1); reflexivity.
Qed.

(** ** The hash of the keys and the coefficients *)
Lemma ser33 pk P : pubkey_holds pk P -> exists len, ec_pubkey_serialize (Some (zeros 33)) (Some 33) (Some pk) EC_COMPRESSED = Some (mkres 1 0 (Some (cbytes P), len)).
Proof.
  intros H. destruct P as [|x y]; [destruct H|]. destruct (prop_serialize [] (zeros 33) pk x y true H) as (_ & E & _). cbv zeta in E.
  specialize (E (le_n 33)). change (Z.of_nat (length (zeros 33))) with 33 in E. rewrite E. cbn [pubkey_enc cbytes]. change (repeat 0 (length (zeros 33) - 33)) with (@nil Z). rewrite app_nil_r. now eexists.
Qed.
Lemma pks_loop_ok pks Ps : Forall2 pubkey_holds pks Ps -> forall sha m, sha_at sha m ->
  exists sha', pks_hash_loop sha pks = inl sha' /\ sha_at sha' (m ++ List.concat (map cbytes Ps)).
Proof.
  induction 1 as [|pk P pks Ps H _ IH]; intros sha m HS; cbn [pks_hash_loop map List.concat].
  - exists sha. rewrite app_nil_r. auto.
  - destruct (ser33 _ _ H) as [len E]. rewrite E. cbn [r_ret r_out fst Z.eqb]. rewrite app_assoc. apply IH. apply write_at; [exact HS|apply cbytes_bytes].
Qed.
Lemma concat_cbytes_length Ps : length (List.concat (map cbytes Ps)) = (33 * length Ps)%nat.
Proof. induction Ps as [|P Ps IH]; [reflexivity|]. cbn [map List.concat length]. rewrite app_length, IH, cbytes_length. lia. Qed.
Lemma pks_hash_ok pks Ps : Forall2 pubkey_holds pks Ps -> 33 * Z.of_nat (length Ps) < 2 ^ 61 - 64 -> musig_compute_pks_hash pks = inl (key_list_hash Ps).
Proof.
  intros H L. unfold musig_compute_pks_hash. destruct (pks_loop_ok _ _ H _ _ (mid_check_at _ _ mid_keyagglist)) as (sha & E & HS).
  change (set_midstate (sh_s musig_keyagglist_sha256)) with musig_keyagglist_sha256 in E. rewrite E. f_equal. unfold key_list_hash.
  rewrite tag_app in HS. rewrite tagged_unfold. apply (finalize_ok _ _ HS).
  apply tag_len. rewrite concat_cbytes_length. lia.
Qed.
Lemma coef_ok Ps pk P second : Forall key_point Ps -> ge_rep f1 pk P -> P <> Inf -> ge_rep f1 second (second_key Ps) ->
  let c := musig_keyaggcoef_internal (key_list_hash Ps) pk second in sc_ok c /\ sv c = key_coef Ps P.
Proof.
  intros KP R NI R2. cbv zeta. unfold musig_keyaggcoef_internal, key_coef, ge_is_infinity. pose proof (ginf_iff _ _ _ R2) as I2. pose proof (ge_eq_var_ok _ _ _ _ R R2) as EQ.
  assert (B : negb (ginf second) && ge_eq_var pk second = point_eqb P (second_key Ps)).
  { apply eq_true_iff_eq. rewrite andb_true_iff, negb_true_iff, EQ, point_eqb_eq. split; [tauto|]. intros E. split; [|exact E]. apply not_true_is_false. intros K. apply I2 in K. congruence. }
  rewrite B. destruct (point_eqb P (second_key Ps)).
  - destruct (sc_set_int_ok 1) as [A E]; [lia|]. auto.
  - rewrite (ser_ok _ _ R NI). cbv zeta.
    assert (E : sha256_finalize (sha256_write (sha256_write musig_keyaggcoef_sha256 (key_list_hash Ps)) (cbytes P)) = tagged_hash (ascii_bytes "KeyAgg coefficient"%string) (key_list_hash Ps ++ cbytes P)).
    { rewrite (tagged_unfold (ascii_bytes "KeyAgg coefficient"%string)). apply finalize_ok; [|apply tag_len; rewrite app_length, key_hash_length, cbytes_length; reflexivity].
      rewrite <- tag_app, (app_assoc _ (key_list_hash Ps)). apply write_at; [|apply cbytes_bytes]. apply write_at; [|apply key_hash_bytes]. exact (mid_check_at _ _ mid_keyaggcoef). }
    rewrite E. apply sc_mod_set, tagged_bytes.
Qed.

(** ** Aggregation *)
Lemma second_loop_ok pk0 P0 rest Ps : pubkey_holds pk0 P0 -> Forall2 pubkey_holds rest Ps ->
  exists g, second_pk_loop pk0 rest = Some g /\ ge_rep f1 g (second_key (P0 :: Ps)).
Proof.
  intros H0. induction 1 as [|pk P rest Ps H _ IH]; cbn [second_pk_loop second_key find].
  - exists ge_infinity. split; [reflexivity|apply ge_infinity_rep].
  - assert (L0 : length pk0 = length pk) by (rewrite (proj2 (holds_point64 _ _ H0)), (proj2 (holds_point64 _ _ H)), !point64_length; reflexivity).
    assert (B : negb (memcmp_var pk0 pk =? 0) = negb (point_eqb P P0)).
    { f_equal. apply eq_true_iff_eq. rewrite (memcmp_eq pk0 pk L0), point_eqb_eq. split.
      - intros ->. exact (pubkey_holds_fun _ _ _ H H0).
      - intros ->. exact (pubkey_holds_inj _ _ _ H0 H). }
    rewrite B. destruct (negb (point_eqb P P0)); [|exact IH].
    destruct (pubkey_load_ok _ _ H) as (E & R & _). destruct (pubkey_load pk) as [ok g]. cbn [fst snd] in *. subst ok. exists g. auto.
Qed.
Lemma multi_loop_ok cb l : forall idx r S, gej_rep f1 r S ->
  (forall i, (i < length l)%nat -> exists s g, cb (idx + i)%nat = Some (s, g) /\ sc_ok s /\ sv s = fst (nth i l (0, Inf)) /\ ge_rep f1 g (snd (nth i l (0, Inf)))) ->
  exists r', multi_simple_loop cb idx (length l) r = Some r' /\ gej_rep f1 r' (padd S (psum (map (fun kP => pmul (fst kP) (snd kP)) l))).
Proof.
  induction l as [|[k P] l IH]; intros idx r S RS H; cbn [length multi_simple_loop map psum fold_right].
  - exists r. rewrite padd_Inf_r. auto.
  - destruct (H 0%nat ltac:(cbn; lia)) as (s & g & E & KS & ES & RG). rewrite Nat.add_0_r in E. rewrite E. cbn [nth fst snd] in ES, RG |- *.
    pose proof (ecmult_ok (gej_set_ge g) s None P (gej_set_ge_ok _ _ _ RG) KS I) as M. cbn [opt_sv] in M. change (pmul 0 G) with Inf in M. rewrite padd_Inf_r, ES in M.
    pose proof (gej_add_var_ok f1 _ _ _ _ f1_nz RS M) as A. destruct (IH (Datatypes.S idx) _ _ A) as (r' & E' & R').
    + intros i Hi. destruct (H (Datatypes.S i) ltac:(cbn; lia)) as (s' & g' & E2 & rest). exists s', g'. replace (Datatypes.S idx + i)%nat with (idx + Datatypes.S i)%nat by lia. split; [exact E2|exact rest].
    + exists r'. split; [exact E'|]. assert (OS : on_curve S) by exact (gej_rep_oc _ _ _ RS). assert (OP : on_curve (pmul k P)) by exact (on_curve_mul _ _ (ge_rep_oc _ _ _ RG)).
      rewrite padd_assoc in R'; [exact R'|exact OS|exact OP|].
      assert (G' : forall l', (forall i, (i < length l')%nat -> on_curve (snd (nth i l' (0, Inf)))) -> on_curve (fold_right padd Inf (map (fun kP => pmul (fst kP) (snd kP)) l'))).
      { clear. induction l' as [|[k P] l' IH']; intros H; [exact I|]. cbn [map fold_right fst snd]. apply on_curve_add; [apply on_curve_mul; exact (H 0%nat ltac:(cbn; lia))|].
        apply IH'. intros i Hi. exact (H (Datatypes.S i) ltac:(cbn; lia)). }
      apply G'. intros i Hi. destruct (H (Datatypes.S i) ltac:(cbn; lia)) as (s' & g' & _ & _ & _ & Rg). exact (ge_rep_oc _ _ _ Rg).
Qed.
Lemma Forall2_key pks Ps : Forall2 pubkey_holds pks Ps -> Forall key_point Ps.
Proof. induction 1 as [|pk P pks Ps H _ IH]; constructor; [exact (proj1 (holds_point64 _ _ H))|exact IH]. Qed.
Lemma Forall2_nth_holds pks Ps : Forall2 pubkey_holds pks Ps -> forall i, (i < length Ps)%nat -> pubkey_holds (nth i pks []) (nth i Ps Inf).
Proof.
  induction 1 as [|pk P pks Ps H _ IH]; intros i Hi; [cbn in Hi; lia|]. destruct i as [|i]; cbn [nth]; [exact H|]. apply IH. cbn in Hi. lia.
Qed.
Lemma Forall2_len {A B} (R : A -> B -> Prop) l l' : Forall2 R l l' -> length l = length l'.
Proof. induction 1; cbn; congruence. Qed.
Lemma multi_agg_ok pks Ps second : pks <> [] -> Forall2 pubkey_holds pks Ps -> ge_rep f1 second (second_key Ps) ->
  exists r, ecmult_multi_var_noscratch None (musig_pubkey_agg_callback (key_list_hash Ps) pks second) (length pks) = Some r /\ gej_rep f1 r (key_agg Ps).
Proof.
  intros NE H R2. pose proof (Forall2_key _ _ H) as KP. pose proof (Forall2_len _ _ _ H) as LE.
  set (l := map (fun P => (key_coef Ps P, P)) Ps). assert (LL : length l = length pks) by (unfold l; now rewrite map_length).
  assert (ES : key_agg Ps = psum (map (fun kP => pmul (fst kP) (snd kP)) l)) by (unfold key_agg, l; now rewrite map_map).
  assert (R0 : gej_rep f1 (ecmult gej_infinity sc_zero None) Inf).
  { pose proof (ecmult_ok gej_infinity sc_zero None Inf (gej_infinity_rep f1) (proj1 sc_zero_ok) I) as M. rewrite (proj2 sc_zero_ok) in M. exact M. }
  destruct (multi_loop_ok (musig_pubkey_agg_callback (key_list_hash Ps) pks second) l 0 _ _ R0) as (r & E & RR).
  - intros i Hi. rewrite Nat.add_0_l. unfold musig_pubkey_agg_callback. cbv zeta. assert (Hi' : (i < length Ps)%nat) by lia.
    pose proof (Forall2_nth_holds _ _ H i Hi') as HH. destruct (pubkey_load_ok _ _ HH) as (_ & R & _). set (g := snd (pubkey_load (nth i pks []))) in *.
    assert (EN : nth i l (0, Inf) = (key_coef Ps (nth i Ps Inf), nth i Ps Inf)).
    { unfold l. rewrite (nth_indep _ (0, Inf) ((fun P => (key_coef Ps P, P)) Inf)) by (rewrite map_length; exact Hi'). exact (map_nth (fun P => (key_coef Ps P, P)) Ps Inf i). }
    rewrite EN. cbn [fst snd]. assert (NI : nth i Ps Inf <> Inf) by exact (proj2 (proj1 (holds_point64 _ _ HH))).
    destruct (coef_ok Ps g _ second KP R NI R2) as [A B]. eexists _, g. split; [reflexivity|]. auto.
  - exists r. rewrite LL in E. rewrite ES. split; [|exact RR]. unfold ecmult_multi_var_noscratch. destruct pks as [|pk pks]; [contradiction|]. exact E.
Qed.
Lemma set_y_norm g P : ge_rep f1 g P -> P <> Inf ->
  let g' := mkge (gx g) (fe_normalize_var (gy g)) (ginf g) in ge_rep f1 g' P /\ fe_norm (gy g').
Proof.
  intros R NI. destruct P as [|x y]; [congruence|]. destruct (ge_rep1_aff _ _ _ R) as (EI & EX & EY). destruct (ge_rep_mags _ _ _ R) as (MX%fx_mag & MY%fx_mag & OC). cbv zeta. cbn [gx gy ginf].
  assert (M32 : fe_mag 32 (gy g)) by (eapply mag_weaken; [exact MY|lia]). rewrite (fe_normalize_var_eq _ M32). pose proof (proj1 (fe_normalize_ok _ M32)) as N1.
  split; [|exact N1]. apply ge_rep1_intro; cbn [gx gy ginf]; [exact MX|eapply mag_weaken; [exact (fe_norm_mag _ N1)|lia]|exact OC|exact EI|exact EX|]. rewrite (fe_normalize_fv _ M32). exact EY.
Qed.
Theorem pubkey_agg_ok agg cache pks Ps : Forall2 pubkey_holds pks Ps -> Ps <> [] -> 33 * Z.of_nat (length Ps) < 2 ^ 61 - 64 -> key_agg Ps <> Inf ->
  exists xpk cache', musig_pubkey_agg agg cache (Some pks) =
    mkres 1 0 (match agg with Some _ => Some xpk | None => None end, match cache with Some _ => Some cache' | None => None end) /\
    xonly_holds xpk (even_y (key_agg Ps)) /\ cache_holds cache' Ps (agg_start Ps).
Proof.
  intros H NE L NI. pose proof (Forall2_key _ _ H) as KP. destruct Ps as [|P0 Ps]; [congruence|]. inversion H as [|pk0 ? rest ? H0 HR E1 E2]. subst.
  destruct (second_loop_ok pk0 P0 rest Ps H0 HR) as (second & ES & R2).
  assert (NP : pk0 :: rest <> []) by discriminate. destruct (multi_agg_ok (pk0 :: rest) (P0 :: Ps) second NP H R2) as (r & EM & RM).
  unfold musig_pubkey_agg. rewrite ES, (pks_hash_ok _ _ H L), EM. clear EM ES. set (LPs := P0 :: Ps) in *. clearbody LPs.
  destruct (ge_set_gej_ok _ _ _ RM) as (RG & _ & _). destruct (set_y_norm _ _ RG NI) as (RN & NY). cbv zeta in RN, NY |- *.
  set (pkp := mkge _ _ _) in *. clearbody pkp.
  destruct (ge_even_y_ok _ _ RN NI NY) as (RE & _ & _).
  eexists (xonly_pubkey_save (fst (extrakeys_ge_even_y pkp))), (keyagg_cache_save _). split; [destruct agg, cache; reflexivity|]. split.
  - split; [apply pubkey_save_ok; [exact RE|now apply even_y_ninf]|]. apply even_y_odd. exact (ge_rep_oc _ _ _ RN).
  - apply cache_save_ok. unfold cache_int, agg_start. cbn [ci_pk ci_second_pk ci_pks_hash ci_tweak ci_parity_acc ac_Q ac_gacc ac_tacc].
    split; [exact RN|]. split; [exact NI|]. split; [exact KP|]. split; [exact R2|]. split; [reflexivity|]. change (sc_of_Z 0) with sc_zero. split; [exact (proj1 sc_zero_ok)|]. split; [exact (proj2 sc_zero_ok)|]. split; [left; reflexivity|reflexivity].
Qed.

(** ** Reading and tweaking the aggregate key *)
Theorem pubkey_get_ok init cache Ps c : cache_holds cache Ps c ->
  exists pk, musig_pubkey_get (Some init) (Some cache) = mkres 1 0 (Some pk) /\ pubkey_holds pk (ac_Q c).
Proof.
  intros H. destruct (cache_load_ok _ _ _ H) as (ci & E & (RQ & NI & _) & _). unfold musig_pubkey_get. rewrite E. eexists. split; [reflexivity|]. now apply pubkey_save_ok.
Qed.
Lemma tweak_point_ok g Q t : ge_rep f1 g Q -> sc_ok t -> let R := padd Q (pmul (sv t) G) in
  (R <> Inf /\ exists g', eckey_pubkey_tweak_add g t = Some g' /\ ge_rep f1 g' R) \/ (R = Inf /\ eckey_pubkey_tweak_add g t = None).
Proof.
  intros RQ KT R. unfold eckey_pubkey_tweak_add. cbv zeta.
  pose proof (ecmult_ok (gej_set_ge g) sc_one (Some t) Q (gej_set_ge_ok _ _ _ RQ) (proj1 sc_one_ok) KT) as M.
  set (pt := ecmult _ _ _) in *. clearbody pt. rewrite (proj2 sc_one_ok), pmul_1 in M. cbn [opt_sv] in M. fold R in M.
  unfold gej_is_infinity. pose proof (gej_rep_jinf _ _ _ M) as JI. destruct (jinf pt).
  - right. split; [now apply JI|reflexivity].
  - assert (NI : R <> Inf) by (intros E; apply JI in E; discriminate). left. split; [exact NI|]. exists (ge_set_gej pt). split; [reflexivity|]. now apply ge_set_gej_ok.
Qed.
Definition tw_sign (c : aggctx) (xonly : bool) : bool := xonly && Z.odd (ycoord (ac_Q c)).
Lemma even_pmul Q : on_curve Q -> even_y Q = pmul (if Z.odd (ycoord Q) then -1 else 1) Q.
Proof. intros OC. unfold even_y. destruct (Z.odd (ycoord Q)); [|now rewrite pmul_1]. now rewrite (pmul_neg 1), pmul_1. Qed.
Theorem tweak_add_ok out cache Ps c tw xonly : cache_holds cache Ps c -> bytes_n 32 tw ->
  match apply_tweak c (be_val tw) xonly with
  | Some c' => exists pk cache', musig_pubkey_tweak_add_internal out (Some cache) (Some tw) xonly =
      mkres 1 0 (match out with Some _ => Some pk | None => None end, Some cache') /\ pubkey_holds pk (ac_Q c') /\ cache_holds cache' Ps c'
  | None => musig_pubkey_tweak_add_internal out (Some cache) (Some tw) xonly =
      mkres 0 0 (match out with Some _ => Some (repeat 0 64) | None => None end, Some cache)
  end.
Proof.
  intros H HT. destruct (cache_load_ok _ _ _ H) as (ci & E & (RQ & NI & KP & R2 & EH & KA & EA & EG & EP) & NX & NY).
  pose proof (ge_rep_oc _ _ _ RQ) as OC. destruct (sc_set_b32_case tw HT) as (KT & _ & CT).
  unfold musig_pubkey_tweak_add_internal, apply_tweak. rewrite E. cbv zeta. destruct (sc_set_b32 tw) as [t ov]. cbn [fst snd] in *.
  destruct CT as [(LT & -> & ET)|(LT & ->)].
  2: { replace (n <=? be_val tw) with true by (symmetry; apply Z.leb_le; lia). destruct out; reflexivity. }
  replace (n <=? be_val tw) with false by (symmetry; apply Z.leb_gt; lia).
  set (b := xonly && Z.odd (ycoord (ac_Q c))).
  assert (S1 : exists g, (if xonly then extrakeys_ge_even_y (ci_pk ci) else (ci_pk ci, 0)) = (g, if b then 1 else 0) /\ ge_rep f1 g (pmul (if b then -1 else 1) (ac_Q c))).
  { unfold b. destruct xonly; cbn [andb].
    - destruct (ge_even_y_ok _ _ RQ NI NY) as (RE & EO & _). destruct (extrakeys_ge_even_y (ci_pk ci)) as [g o]. cbn [fst snd] in *. exists g. rewrite EO. split; [reflexivity|]. now rewrite <- even_pmul.
    - exists (ci_pk ci). split; [reflexivity|]. now rewrite pmul_1. }
  destruct S1 as (g & -> & RG). cbv zeta.
  set (acc := sc_add (if (if b then 1 else 0) =? 0 then ci_tweak ci else sc_negate (ci_tweak ci)) t).
  assert (KACC : sc_ok acc /\ sv acc = (be_val tw + (if b then -1 else 1) * ac_tacc c) mod n).
  { unfold acc. destruct b; cbn [Z.eqb].
    - destruct (sc_negate_ok _ KA) as (KN & EN). split; [now apply sc_add_ok|]. rewrite sc_add_sv, EN, EA, ET by assumption. rewrite Zplus_mod_idemp_l. f_equal. ring.
    - split; [now apply sc_add_ok|]. rewrite sc_add_sv, EA, ET by assumption. f_equal. ring. }
  destruct KACC as (KACC & EACC). clearbody acc.
  destruct (tweak_point_ok g _ t RG KT) as [(NR & g' & E' & RG')|(NR & E')]; rewrite E', ET in *.
  - set (Q' := padd _ _) in *. destruct Q' as [|x y] eqn:EQ; [congruence|]. rewrite <- EQ in *. clearbody Q'.
    eexists _, (keyagg_cache_save _). split; [destruct out; reflexivity|]. cbn [ac_Q]. split; [now apply pubkey_save_ok|].
    apply cache_save_ok. unfold cache_int. cbn [ci_pk ci_second_pk ci_pks_hash ci_tweak ci_parity_acc ac_Q ac_gacc ac_tacc].
    split; [exact RG'|]. split; [exact NR|]. split; [exact KP|]. split; [exact R2|]. split; [exact EH|]. split; [exact KACC|]. split; [exact EACC|].
    rewrite EP. clear -EG. destruct b, EG as [-> | ->]; cbn; auto.
  - rewrite NR. destruct out; reflexivity.
Qed.
