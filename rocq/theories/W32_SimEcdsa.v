(** The ECDSA and key functions of the 32-bit build next to those of the 64-bit build. *)
Require Import ZArith List Bool Lia.
From Verif Require Import Word Word32 Bytes Spec HashModel FieldModel ScalarModel Field32Model Field32Bytes Scalar32Model Scalar32Ops FieldBytes ScalarProof ScalarProof2 GenTable GroupModel EcmultModel GenModel EcdsaModel SpecHash HashProof W32_Base W32_Group W32_Ecmult W32_Gen W32_Ecdsa W32_Tight W32_SimField W32_SimScalar W32_SimGroup W32_SimEcmult W32_SimGen.
Import ListNotations.
Local Open Scope Z_scope.

Definition rout {A B} (R : A -> B -> Prop) (a : outcome A) (b : outcome B) : Prop :=
  match a, b with Ub, Ub | Ret0, Ret0 => True | Ret1 x, Ret1 y => R x y | _, _ => False end.
Definition ropt {A B} (R : A -> B -> Prop) (a : option A) (b : option B) : Prop :=
  match a, b with None, None => True | Some x, Some y => R x y | _, _ => False end.
Lemma rn_order : rn const_order_as_fe_w32 const_order_as_fe. Proof. apply rn_of_Z. vm_cast_no_check (eq_refl true). Qed.
Lemma rn_p_minus : rn const_p_minus_order_w32 const_p_minus_order. Proof. apply rn_of_Z. vm_cast_no_check (eq_refl true). Qed.
Lemma rd_n_bytes buf i k d : byte_list buf -> rd_n buf i k = Some d -> byte_list d /\ length d = Z.to_nat k /\ 0 <= k.
Proof.
  unfold rd_n. intros B. destruct (_ && _ && _) eqn:E; [|discriminate]. intros H. injection H as <-. apply andb_prop in E as [E1 E3]. apply andb_prop in E1 as [E1 E2].
  apply Z.leb_le in E1, E2, E3. split; [apply byte_list_firstn, byte_list_skipn, B|]. split; [|exact E2]. rewrite firstn_length, skipn_length. lia.
Qed.
Lemma byte_list_zeros k : byte_list (repeat 0 k).
Proof. apply Forall_forall. intros x Hx. apply repeat_spec in Hx. subst x. split; [lia|reflexivity]. Qed.
Lemma r_der_integer buf pos : byte_list buf ->
  rout (fun a b => same (fst a) (fst b) /\ snd a = snd b) (der_parse_integer_w32 buf pos) (der_parse_integer buf pos).
Proof.
  intros B. unfold der_parse_integer_w32, der_parse_integer. cbv zeta.
  destruct (pos =? _); [exact I|]. destruct (rd buf pos); [|exact I]. destruct (negb _); [exact I|].
  destruct (der_read_len buf (pos + 1)) as [| |[rlen q]]; [exact I|exact I|].
  destruct (_ || _); [exact I|]. destruct (rd buf q) as [b0|]; [|exact I]. destruct (if rlen >? 1 then _ else _) as [b1|]; [|exact I].
  destruct (_ && _ && _); [exact I|]. destruct (_ && _ && _); [exact I|].
  destruct (if b0 =? 0 then _ else _) as [rl q']. set (ov := (_ =? 128) || (rl >? 32)) in *.
  assert (Z0 : same (s8_set_int 0) (sc_set_int 0)) by (apply same_set_int; split; [lia|reflexivity]).
  destruct ov eqn:E.
  - split; [exact Z0|reflexivity].
  - destruct (rd_n buf q' rl) as [d|] eqn:R; [|exact I]. destruct (rd_n_bytes _ _ _ _ B R) as (Bd & Ld & Rl).
    assert (L32 : rl <= 32). { subst ov. apply orb_false_iff in E as [_ E]. rewrite Z.gtb_ltb in E. apply Z.ltb_ge in E. exact E. }
    destruct (same_set_b32 (repeat 0 (32 - Z.to_nat rl) ++ d)) as [S1 S2].
    { apply byte_list_app. split; [apply byte_list_zeros|exact Bd]. }
    { rewrite app_length, repeat_length, Ld. lia. }
    destruct (s8_set_b32 _) as [r o], (sc_set_b32 _) as [r' o']. cbn [fst snd] in S1, S2. subst o'. destruct o; (split; [assumption|reflexivity]).
Qed.
Lemma r_sig_parse buf : byte_list buf -> rout (fun a b => same (fst a) (fst b) /\ same (snd a) (snd b)) (ecdsa_sig_parse_w32 buf) (ecdsa_sig_parse buf).
Proof.
  intros B. unfold ecdsa_sig_parse_w32, ecdsa_sig_parse. cbv zeta. destruct (0 =? _); [exact I|]. destruct (rd buf 0); [|exact I]. destruct (negb _); [exact I|].
  destruct (der_read_len buf 1) as [| |[rlen q]]; [exact I|exact I|]. destruct (negb _); [exact I|].
  pose proof (r_der_integer buf q B) as H. destruct (der_parse_integer_w32 buf q) as [| |[r q1]], (der_parse_integer buf q) as [| |[r' q1']]; try contradiction H; try exact I.
  destruct H as [H1 H2]. cbn [fst snd] in H1, H2. subst q1'.
  pose proof (r_der_integer buf q1 B) as K. destruct (der_parse_integer_w32 buf q1) as [| |[s q2]], (der_parse_integer buf q1) as [| |[s' q2']]; try contradiction K; try exact I.
  destruct K as [K1 K2]. cbn [fst snd] in K1, K2. subst q2'. destruct (negb _); [exact I|]. split; assumption.
Qed.
Lemma r_sig_serialize sig size a a' b b' : same a a' -> same b b' -> ecdsa_sig_serialize_w32 sig size a b = ecdsa_sig_serialize sig size a' b'.
Proof. intros Ha Hb. unfold ecdsa_sig_serialize_w32, ecdsa_sig_serialize. rewrite (same_get_b32 _ _ Ha), (same_get_b32 _ _ Hb). reflexivity. Qed.
Lemma get_b32_bytes a : sc_ok a -> byte_list (sc_get_b32 a) /\ length (sc_get_b32 a) = 32%nat.
Proof. intros H. rewrite sc_get_b32_ok by apply H. split; [apply be_bytes_byte_list|apply be_bytes_length]. Qed.
Lemma rn_scalar_limit a : sc_ok a -> rn (snd (f26_set_b32_limit (sc_get_b32 a))) (snd (fe_set_b32_limit (sc_get_b32 a))).
Proof.
  intros H. destruct (get_b32_bytes a H) as [B L]. destruct (rt_set_b32_limit _ B L) as (_ & _ & N). apply N.
  destruct (fe_set_b32_limit_ok _ B L) as (E & _). rewrite E. apply Z.ltb_lt. rewrite sc_get_b32_ok by apply H.
  rewrite be_val_be_bytes. pose proof (sc_ok_range _ H). assert (n < p) by reflexivity. rewrite Z.mod_small; [lia|]. split; [lia|]. assert (n < 2 ^ (8 * Z.of_nat 32)) by reflexivity. lia.
Qed.
Lemma r_sig_verify r r' s s' q q' m m' : same r r' -> same s s' -> RG q q' -> same m m' -> ecdsa_sig_verify_w32 r s q m = ecdsa_sig_verify r' s' q' m'.
Proof.
  intros Hr Hs Hq Hm. unfold ecdsa_sig_verify_w32, ecdsa_sig_verify. rewrite (same_zero_test _ _ Hr), (same_zero_test _ _ Hs). destruct (_ || _); [reflexivity|]. cbv zeta.
  rewrite (same_get_b32 _ _ Hr). pose proof (same_inverse_var _ _ Hs) as Hn.
  assert (Rp : RJ (ecmult_w32 (gej_set_ge_w32 q) (s8_mul (s8_inverse_var_w32 s) r) (Some (s8_mul (s8_inverse_var_w32 s) m)))
                  (ecmult (gej_set_ge q') (sc_mul (sc_inverse_var s') r') (Some (sc_mul (sc_inverse_var s') m')))).
  { apply r_ecmult; [apply rj_set_ge; exact Hq|apply same_mul'; assumption|apply same_mul'; assumption]. }
  unfold gej_is_infinity_w32, gej_is_infinity. rewrite (r_jinf _ _ _ _ _ Rp). destruct (jinf _); [reflexivity|].
  pose proof (rn_scalar_limit r' ltac:(apply Hr)) as N.
  revert Rp N. generalize (ecmult_w32 (gej_set_ge_w32 q) (s8_mul (s8_inverse_var_w32 s) r) (Some (s8_mul (s8_inverse_var_w32 s) m))).
  generalize (ecmult (gej_set_ge q') (sc_mul (sc_inverse_var s') r') (Some (sc_mul (sc_inverse_var s') m'))).
  generalize (snd (f26_set_b32_limit (sc_get_b32 r'))). generalize (snd (fe_set_b32_limit (sc_get_b32 r'))). intros x' x j' j Rp N.
  rewrite (r_gej_eq_x_var x x' j j'); [|apply (rf_weaken 1); [apply rn_rf, N|lia]|exact Rp].
  destruct (gej_eq_x_var x' j'); [reflexivity|]. rewrite (rn_cmp_var _ _ _ _ N rn_p_minus). destruct (_ >=? 0); [reflexivity|].
  apply r_gej_eq_x_var; [|exact Rp]. apply (rf_weaken 2); [|lia]. apply (rf_add 1 1); [apply rn_rf, N|apply rn_rf, rn_order|lia..].
Qed.
Lemma rn_bytes a b : rn a b -> byte_list (fe_get_b32 b) /\ length (fe_get_b32 b) = 32%nat.
Proof. intros (_ & H & _). rewrite (fe_get_b32_ok _ H). split; [apply be_bytes_byte_list|apply be_bytes_length]. Qed.
Lemma r_sig_sign c c' sec sec' m m' k k' : rgen c c' -> same sec sec' -> same m m' -> same k k' ->
  fst (fst (fst (ecdsa_sig_sign_w32 c sec m k))) = fst (fst (fst (ecdsa_sig_sign c' sec' m' k'))) /\
  same (snd (fst (fst (ecdsa_sig_sign_w32 c sec m k)))) (snd (fst (fst (ecdsa_sig_sign c' sec' m' k')))) /\
  same (snd (fst (ecdsa_sig_sign_w32 c sec m k))) (snd (fst (ecdsa_sig_sign c' sec' m' k'))) /\
  snd (ecdsa_sig_sign_w32 c sec m k) = snd (ecdsa_sig_sign c' sec' m' k').
Proof.
  intros Hc Hs Hm Hk. unfold ecdsa_sig_sign_w32, ecdsa_sig_sign. cbv zeta.
  pose proof (rg_set_gej _ _ (r_ecmult_gen _ _ _ _ Hc Hk)) as G. revert G. generalize (ge_set_gej_w32 (ecmult_gen_w32 c k)). generalize (ge_set_gej (ecmult_gen c' k')).
  intros g' g (X & Y & _). pose proof (rn_normalize 1 _ _ X ltac:(lia)) as NX. pose proof (rn_normalize 1 _ _ Y ltac:(lia)) as NY.
  rewrite (rn_get_b32 _ _ NX), (rn_is_odd _ _ NY). destruct (rn_bytes _ _ NX) as [B L]. destruct (same_set_b32 _ B L) as [S1 S2].
  destruct (s8_set_b32 _) as [r o], (sc_set_b32 _) as [r' o']. cbn [fst snd] in S1, S2. subst o'.
  pose proof (same_inverse _ _ Hk) as I1.
  assert (Ss : same (s8_mul (s8_inverse_w32 k) (s8_add (s8_mul r sec) m)) (sc_mul (sc_inverse k') (sc_add (sc_mul r' sec') m'))).
  { apply same_mul'; [exact I1|]. apply same_add; [apply same_mul'; assumption|exact Hm]. }
  revert Ss. generalize (s8_mul (s8_inverse_w32 k) (s8_add (s8_mul r sec) m)). generalize (sc_mul (sc_inverse k') (sc_add (sc_mul r' sec') m')). intros s' s Ss.
  rewrite (same_is_high _ _ Ss). destruct (same_cond_negate s s' (b2z (sc_is_high s')) Ss (b2z_01 _)) as [C1 _]. cbn [fst snd].
  rewrite (same_zero_test _ _ S1), (same_zero_test _ _ C1). split; [reflexivity|]. split; [exact S1|]. split; [exact C1|reflexivity].
Qed.
Lemma r_pubkey_parse pub : byte_list pub -> ropt (rge 1 2) (eckey_pubkey_parse_w32 pub) (eckey_pubkey_parse pub).
Proof.
  intros B. unfold eckey_pubkey_parse_w32, eckey_pubkey_parse. cbv zeta. destruct (Nat.eqb (length pub) 33 && _) eqn:E.
  - apply andb_prop in E as [E _]. apply Nat.eqb_eq in E.
    destruct (rt_set_b32_limit (firstn 32 (skipn 1 pub))) as (F & T & N); [apply byte_list_firstn, byte_list_skipn, B|rewrite firstn_length, skipn_length; lia|].
    destruct (f26_set_b32_limit _) as [o x], (fe_set_b32_limit _) as [o' x']. cbn [fst snd] in F, T, N. subst o'. destruct o; [|exact I].
    pose proof (rt_rf _ _ T) as X. pose proof (r_set_xo_fst x x' (nth 0 pub 0 =? 3) (rf_weaken 1 8 _ _ X ltac:(lia))) as F. pose proof (rg_set_xo 1 x x' (nth 0 pub 0 =? 3) X ltac:(lia)) as R.
    destruct (ge_set_xo_var_w32 _ _) as [o g], (ge_set_xo_var _ _) as [o' g']. cbn [fst snd] in F, R. subst o'. destruct o; [exact R|exact I].
  - clear E. destruct (Nat.eqb (length pub) 65 && _) eqn:E; [|exact I]. apply andb_prop in E as [E _]. apply Nat.eqb_eq in E.
    destruct (rt_set_b32_limit (firstn 32 (skipn 1 pub))) as (F & T & N); [apply byte_list_firstn, byte_list_skipn, B|rewrite firstn_length, skipn_length; lia|].
    destruct (f26_set_b32_limit (firstn 32 (skipn 1 pub))) as [o x], (fe_set_b32_limit (firstn 32 (skipn 1 pub))) as [o' x']. cbn [fst snd] in F, T, N. subst o'.
    destruct (rt_set_b32_limit (firstn 32 (skipn 33 pub))) as (F2 & T2 & N2); [apply byte_list_firstn, byte_list_skipn, B|rewrite firstn_length, skipn_length; lia|].
    destruct (f26_set_b32_limit (firstn 32 (skipn 33 pub))) as [o2 y], (fe_set_b32_limit (firstn 32 (skipn 33 pub))) as [o2' y']. cbn [fst snd] in F2, T2, N2. subst o2'.
    destruct o; [|exact I]. destruct o2; [|exact I]. cbn [negb orb].
    rewrite (rn_is_odd _ _ (N2 eq_refl)). destruct (_ && _); [exact I|].
    pose proof (rg_set_xy 1 1 _ _ _ _ (rt_rf _ _ T) (rt_rf _ _ T2)) as R. rewrite (r_valid _ _ (rge_weaken 1 1 4 4 _ _ R ltac:(lia) ltac:(lia))).
    destruct (ge_is_valid_var _); [|exact I]. apply (rge_weaken 1 1); [exact R|lia|lia].
Qed.
Lemma r_pubkey_serialize e e' comp : RG e e' -> eckey_pubkey_serialize_w32 e comp = eckey_pubkey_serialize e' comp.
Proof.
  intros (X & Y & E). unfold eckey_pubkey_serialize_w32, eckey_pubkey_serialize, ge_is_infinity_w32, ge_is_infinity. rewrite E. destruct (ginf e'); [reflexivity|]. cbv zeta.
  pose proof (rn_normalize_var 4 _ _ X ltac:(lia)) as NX. pose proof (rn_normalize_var 4 _ _ Y ltac:(lia)) as NY.
  rewrite (rn_get_b32 _ _ NX), (rn_get_b32 _ _ NY), (rn_is_odd _ _ NY). reflexivity.
Qed.
Lemma r_priv_tweak_add k k' t t' : same k k' -> same t t' ->
  fst (eckey_privkey_tweak_add_w32 k t) = fst (eckey_privkey_tweak_add k' t') /\ same (snd (eckey_privkey_tweak_add_w32 k t)) (snd (eckey_privkey_tweak_add k' t')).
Proof.
  intros Hk Ht. pose proof (same_add _ _ _ _ Hk Ht) as H. unfold eckey_privkey_tweak_add_w32, eckey_privkey_tweak_add. cbv zeta. cbn [fst snd].
  rewrite (same_zero_test _ _ H). split; [reflexivity|exact H].
Qed.
Lemma r_priv_tweak_mul k k' t t' : same k k' -> same t t' ->
  fst (eckey_privkey_tweak_mul_w32 k t) = fst (eckey_privkey_tweak_mul k' t') /\ same (snd (eckey_privkey_tweak_mul_w32 k t)) (snd (eckey_privkey_tweak_mul k' t')).
Proof.
  intros Hk Ht. unfold eckey_privkey_tweak_mul_w32, eckey_privkey_tweak_mul. cbv zeta. cbn [fst snd].
  rewrite (same_zero_test _ _ Ht). split; [reflexivity|apply same_mul'; assumption].
Qed.
Lemma r_pub_tweak_add k k' t t' : RG k k' -> same t t' -> ropt (rge 1 1) (eckey_pubkey_tweak_add_w32 k t) (eckey_pubkey_tweak_add k' t').
Proof.
  intros Hk Ht. unfold eckey_pubkey_tweak_add_w32, eckey_pubkey_tweak_add. cbv zeta.
  pose proof (r_ecmult _ _ _ _ (Some t) (Some t') (rj_set_ge _ _ _ _ Hk) same_one Ht) as R. unfold gej_is_infinity_w32, gej_is_infinity. rewrite (r_jinf _ _ _ _ _ R).
  destruct (jinf _); [exact I|]. exact (rg_set_gej _ _ R).
Qed.
Lemma r_pub_tweak_mul k k' t t' : RG k k' -> same t t' -> ropt (rge 1 1) (eckey_pubkey_tweak_mul_w32 k t) (eckey_pubkey_tweak_mul k' t').
Proof.
  intros Hk Ht. unfold eckey_pubkey_tweak_mul_w32, eckey_pubkey_tweak_mul. cbv zeta. rewrite (same_zero_test _ _ Ht). destruct (sc_is_zero t'); [exact I|].
  exact (rg_set_gej _ _ (r_ecmult _ _ _ _ (Some s8_zero) (Some sc_zero) (rj_set_ge _ _ _ _ Hk) Ht same_zero)).
Qed.
