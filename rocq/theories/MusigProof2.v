(** MuSig2: nonces, sessions and partial signatures. *)
Require Import ZArith List Bool Lia Field String.
From Verif Require Import NumTheory Spec SpecApi SpecHash SpecBip340 SpecMusig Primes ZmField Curve NField Word Bytes.
From Verif Require Import FieldModel FieldMul FieldProof FieldProof2 FieldBytes FieldOps.
From Verif Require Import ScalarModel ScalarProof ScalarProof2 ScalarMul.
From Verif Require Import GroupModel GroupProof GroupProof2 GroupProof3 GroupProof4 GroupProof5.
From Verif Require Import HashModel HashProof GenModel GenProof EcmultModel EcmultProof EcmultProof2 EcdsaModel ApiModel ApiVocab ApiProof ApiProof2 ApiProof3 EcdsaProof EcdsaProof2 KeyProps KeyProps2 EcdhProof.
From Verif Require Import ExtrakeysModel ExtrakeysProof SchnorrModel SchnorrProof EllswiftProof2 MusigModel MusigProof.
Import ListNotations.
Local Open Scope Z_scope.
Local Opaque p n.
Local Notation length := List.length.
Local Opaque SHA256 be_bytes tagged_hash pmul.

(** ** Loading and saving *)
Lemma lor_fold_0 l : forall a, fold_left Z.lor l a = 0 -> a = 0 /\ Forall (fun b => b = 0) l.
Proof.
  induction l as [|b l IH]; intros a H; cbn [fold_left] in H; [auto|]. destruct (IH _ H) as [E F]. apply Z.lor_eq_0_iff in E as [-> ->]. auto.
Qed.
Lemma be_val_acc_zeros l : Forall (fun b => b = 0) l -> forall a, be_val_acc a l = a * 256 ^ Z.of_nat (length l).
Proof.
  induction 1 as [|b l -> _ IH]; intros a; cbn [be_val_acc length]; [change (256 ^ Z.of_nat 0) with 1; ring|]. rewrite IH, Nat2Z.inj_succ, Z.pow_succ_r by lia. ring.
Qed.
Lemma be_val_zeros l : Forall (fun b => b = 0) l -> be_val l = 0.
Proof. intros H. unfold be_val. now rewrite (be_val_acc_zeros l H). Qed.
Lemma nz_array l l' v : be_val l = v -> v <> 0 -> is_zero_array (l ++ l') = false.
Proof.
  intros E NV. unfold is_zero_array. apply Z.eqb_neq. intros H. destruct (lor_fold_0 _ _ H) as [_ F]. apply Forall_app in F as [F _]. apply NV. rewrite <- E. now apply be_val_zeros.
Qed.
Lemma val32 v : 0 <= v < n -> be_val (be_bytes 32 v) = v.
Proof. intros H. apply be_bytes_32_val. assert (n < 2 ^ 256) by reflexivity. lia. Qed.
Lemma secnonce_load_ok sn k1 k2 P : secnonce_holds sn k1 k2 P ->
  exists s1 s2 g, musig_secnonce_load sn = Some (s1, s2, g) /\ sc_ok s1 /\ sv s1 = k1 /\ sc_ok s2 /\ sv s2 = k2 /\ ge_rep f1 g P /\ fe_norm (gx g) /\ fe_norm (gy g).
Proof.
  intros (R1 & R2 & KP & ->). pose proof (point64_length P) as LP. pose proof (be_bytes_length 32 k1) as L1. pose proof (be_bytes_length 32 k2) as L2.
  destruct (sc_load k1 ltac:(lia)) as (K1 & E1). destruct (sc_load k2 ltac:(lia)) as (K2 & E2). destruct (load64 _ KP) as (R & NX & NY & _).
  assert (V1 : be_val (be_bytes 32 k1) = k1) by (apply val32; lia).
  unfold musig_secnonce_load. set (A := be_bytes 32 k1) in *. set (B := be_bytes 32 k2) in *. set (C := point64 P) in *.
  assert (T0 : take 0 4 ([34; 14; 220; 241] ++ A ++ B ++ C) = secnonce_magic) by reflexivity.
  assert (T1 : take 4 64 ([34; 14; 220; 241] ++ A ++ B ++ C) = A ++ B). { rewrite (take_drop _ _ 4 0) by reflexivity. rewrite app_assoc. apply take_here. rewrite app_length. lia. }
  assert (T2 : take 4 32 ([34; 14; 220; 241] ++ A ++ B ++ C) = A). { rewrite (take_drop _ _ 4 0) by reflexivity. now apply take_here. }
  assert (T3 : take 36 32 ([34; 14; 220; 241] ++ A ++ B ++ C) = B). { rewrite (take_drop _ _ 36 32), (take_drop A _ 32 0) by (reflexivity || lia). now apply take_here. }
  assert (T4 : take 68 64 ([34; 14; 220; 241] ++ A ++ B ++ C) = C). { rewrite (take_drop _ _ 68 64), (take_drop A _ 64 32), (take_drop B _ 32 0) by (reflexivity || lia). now apply take_all. }
  rewrite T0, T1, T2, T3, T4, (nz_array A B k1 V1) by lia. replace (memcmp_var secnonce_magic secnonce_magic =? 0) with true by reflexivity. cbn [negb].
  eexists _, _, _. split; [reflexivity|]. auto 10.
Qed.
Lemma pubnonce_load_ok pn R1 R2 : pubnonce_holds pn R1 R2 -> exists g1 g2, musig_pubnonce_load pn = Some (g1, g2) /\ ge_rep f1 g1 R1 /\ ge_rep f1 g2 R2.
Proof.
  intros (K1 & K2 & ->). pose proof (point64_length R1) as L1. pose proof (point64_length R2) as L2. destruct (load64 _ K1) as (Q1 & _). destruct (load64 _ K2) as (Q2 & _).
  unfold musig_pubnonce_load. set (A := point64 R1) in *. set (B := point64 R2) in *.
  assert (T0 : take 0 4 ([245; 122; 61; 160] ++ A ++ B) = pubnonce_magic) by reflexivity.
  assert (T1 : take 4 64 ([245; 122; 61; 160] ++ A ++ B) = A). { rewrite (take_drop _ _ 4 0) by reflexivity. now apply take_here. }
  assert (T2 : take 68 64 ([245; 122; 61; 160] ++ A ++ B) = B). { rewrite (take_drop _ _ 68 64), (take_drop A _ 64 0) by (reflexivity || lia). now apply take_all. }
  rewrite T0, T1, T2. replace (memcmp_var pubnonce_magic pubnonce_magic =? 0) with true by reflexivity. eexists _, _. split; [reflexivity|]. auto.
Qed.
Lemma pubnonce_save_ok g1 g2 R1 R2 : ge_rep f1 g1 R1 -> R1 <> Inf -> ge_rep f1 g2 R2 -> R2 <> Inf -> pubnonce_holds (musig_pubnonce_save g1 g2) R1 R2.
Proof.
  intros Q1 N1 Q2 N2. split; [split; [exact (ge_rep_oc _ _ _ Q1)|exact N1]|]. split; [split; [exact (ge_rep_oc _ _ _ Q2)|exact N2]|].
  unfold musig_pubnonce_save. now rewrite (save64 _ _ Q1 N1), (save64 _ _ Q2 N2).
Qed.
Lemma aggnonce_load_ok an R1 R2 : aggnonce_holds an R1 R2 -> exists g1 g2, musig_aggnonce_load an = Some (g1, g2) /\ ge_rep f1 g1 R1 /\ ge_rep f1 g2 R2.
Proof.
  intros (K1 & K2 & ->). pose proof (point64_length R1) as L1. pose proof (point64_length R2) as L2. destruct (load64_ext _ K1) as (Q1 & _). destruct (load64_ext _ K2) as (Q2 & _).
  unfold musig_aggnonce_load. set (A := point64 R1) in *. set (B := point64 R2) in *.
  assert (T0 : take 0 4 ([168; 183; 228; 103] ++ A ++ B) = aggnonce_magic) by reflexivity.
  assert (T1 : take 4 64 ([168; 183; 228; 103] ++ A ++ B) = A). { rewrite (take_drop _ _ 4 0) by reflexivity. now apply take_here. }
  assert (T2 : take 68 64 ([168; 183; 228; 103] ++ A ++ B) = B). { rewrite (take_drop _ _ 68 64), (take_drop A _ 64 0) by (reflexivity || lia). now apply take_all. }
  rewrite T0, T1, T2. replace (memcmp_var aggnonce_magic aggnonce_magic =? 0) with true by reflexivity. eexists _, _. split; [reflexivity|]. auto.
Qed.
Lemma aggnonce_save_ok g1 g2 R1 R2 : ge_rep f1 g1 R1 -> ge_rep f1 g2 R2 -> aggnonce_holds (musig_aggnonce_save g1 g2) R1 R2.
Proof.
  intros Q1 Q2. split; [exact (ge_rep_oc _ _ _ Q1)|]. split; [exact (ge_rep_oc _ _ _ Q2)|].
  unfold musig_aggnonce_save. now rewrite (save64_ext _ _ Q1), (save64_ext _ _ Q2).
Qed.
Definition session_int (si : session_internal) (s : session) : Prop :=
  key_point (ss_R s) /\ si_fin_nonce_parity si = (if Z.odd (ycoord (ss_R s)) then 1 else 0) /\ si_fin_nonce si = be_bytes 32 (xcoord (ss_R s)) /\
  sc_ok (si_noncecoef si) /\ sv (si_noncecoef si) = ss_b s /\ sc_ok (si_challenge si) /\ sv (si_challenge si) = ss_e s /\ sc_ok (si_s_part si) /\ sv (si_s_part si) = ss_s0 s.
Lemma session_save_ok si s : session_int si s -> session_holds (musig_session_save si) s.
Proof.
  intros (KR & EP & EF & KB & EB & KE & EE & KS & ES). split; [exact KR|]. split; [rewrite <- EB; apply sc_ok_range, KB|]. split; [rewrite <- EE; apply sc_ok_range, KE|].
  split; [rewrite <- ES; apply sc_ok_range, KS|]. unfold musig_session_save. rewrite EP, EF, (sc_save _ _ KB EB), (sc_save _ _ KE EE), (sc_save _ _ KS ES).
  destruct (Z.odd (ycoord (ss_R s))); reflexivity.
Qed.
Lemma session_load_ok obj s : session_holds obj s -> exists si, musig_session_load obj = Some si /\ session_int si s.
Proof.
  intros (KR & RB & RE & RS & ->). destruct (sc_load _ RB) as (KB & EB). destruct (sc_load _ RE) as (KE & EE). destruct (sc_load _ RS) as (KS & ES).
  pose proof (be_bytes_length 32 (xcoord (ss_R s))) as L0. pose proof (be_bytes_length 32 (ss_b s)) as L1. pose proof (be_bytes_length 32 (ss_e s)) as L2. pose proof (be_bytes_length 32 (ss_s0 s)) as L3.
  unfold musig_session_load. set (X := be_bytes 32 (xcoord (ss_R s))) in *. set (A := be_bytes 32 (ss_b s)) in *. set (B := be_bytes 32 (ss_e s)) in *. set (C := be_bytes 32 (ss_s0 s)) in *.
  set (g := if Z.odd (ycoord (ss_R s)) then 1 else 0).
  assert (T0 : take 0 4 ([157; 237; 233; 23] ++ [g] ++ X ++ A ++ B ++ C) = session_cache_magic) by reflexivity.
  assert (T1 : take 5 32 ([157; 237; 233; 23] ++ [g] ++ X ++ A ++ B ++ C) = X). { rewrite (take_drop _ _ 5 1), (take_drop [g] _ 1 0) by reflexivity. now apply take_here. }
  assert (T2 : take 37 32 ([157; 237; 233; 23] ++ [g] ++ X ++ A ++ B ++ C) = A). { rewrite (take_drop _ _ 37 33), (take_drop [g] _ 33 32), (take_drop X _ 32 0) by (reflexivity || lia). now apply take_here. }
  assert (T3 : take 69 32 ([157; 237; 233; 23] ++ [g] ++ X ++ A ++ B ++ C) = B). { rewrite (take_drop _ _ 69 65), (take_drop [g] _ 65 64), (take_drop X _ 64 32), (take_drop A _ 32 0) by (reflexivity || lia). now apply take_here. }
  assert (T4 : take 101 32 ([157; 237; 233; 23] ++ [g] ++ X ++ A ++ B ++ C) = C). { rewrite (take_drop _ _ 101 97), (take_drop [g] _ 97 96), (take_drop X _ 96 64), (take_drop A _ 64 32), (take_drop B _ 32 0) by (reflexivity || lia). now apply take_all. }
  rewrite T0, T1, T2, T3, T4. replace (memcmp_var session_cache_magic session_cache_magic =? 0) with true by reflexivity. change (nth 4 ([157; 237; 233; 23] ++ [g] ++ X ++ A ++ B ++ C) 0) with g.
  eexists. split; [reflexivity|]. unfold session_int. cbn [si_fin_nonce_parity si_fin_nonce si_noncecoef si_challenge si_s_part]. auto 12.
Qed.
Lemma psig_save_ok s v : sc_ok s -> sv s = v -> psig_holds (musig_partial_sig_save s) v.
Proof. intros K E. split; [rewrite <- E; apply sc_ok_range, K|]. unfold musig_partial_sig_save. now rewrite (sc_save _ _ K E). Qed.
Lemma psig_load_ok ps v : psig_holds ps v -> exists s, musig_partial_sig_load ps = Some s /\ sc_ok s /\ sv s = v.
Proof.
  intros (RV & ->). destruct (sc_load _ RV) as (K & E). pose proof (be_bytes_length 32 v) as L. unfold musig_partial_sig_load. set (A := be_bytes 32 v) in *.
  assert (T0 : take 0 4 ([235; 251; 26; 50] ++ A) = partial_sig_magic) by reflexivity.
  assert (T1 : take 4 32 ([235; 251; 26; 50] ++ A) = A). { rewrite (take_drop _ _ 4 0) by reflexivity. now apply take_all. }
  rewrite T0, T1. replace (memcmp_var partial_sig_magic partial_sig_magic =? 0) with true by reflexivity. eexists. split; [reflexivity|]. auto.
Qed.

(** ** Nonce generation *)
Lemma be_bytes_0 k : be_bytes k 0 = repeat 0 k.
Proof.
  Local Transparent be_bytes. induction k as [|k IH]; [reflexivity|]. cbn [be_bytes]. change (0 / 256) with 0. rewrite IH. change (0 mod 256) with 0. symmetry. apply repeat_cons.
Qed.
Local Opaque be_bytes.
Lemma be_bytes_S k v : be_bytes (S k) v = be_bytes k (v / 256) ++ [v mod 256]. Proof. reflexivity. Qed.
Lemma be_bytes_small k v : 0 <= v < 256 -> be_bytes (S k) v = repeat 0 k ++ [v].
Proof. intros H. now rewrite be_bytes_S, Z.div_small, be_bytes_0, Z.mod_small. Qed.
Lemma helper_ok sha m k data len : sha_at sha m -> 0 <= len < 256 -> opt_bytes (Z.to_nat len) data ->
  sha_at (nonce_function_musig_helper sha (S k) data len) (m ++ opt_field (S k) data).
Proof.
  intros H HL HD. unfold nonce_function_musig_helper, opt_field. rewrite Nat.sub_succ, Nat.sub_0_r. cbv zeta.
  assert (BZ : byte_list (zeros k)) by (apply byte_list_repeat; lia). pose proof (write_at _ _ _ H BZ) as H1. destruct data as [d|].
  - destruct (HD d eq_refl) as [BD LD]. rewrite LD, Z2Nat.id, be_bytes_small by lia. rewrite firstn_all2 by lia.
    rewrite !app_assoc. apply write_at; [|exact BD]. apply write_at; [exact H1|]. constructor; [lia|constructor].
  - rewrite be_bytes_small by lia. rewrite !app_assoc. apply write_at; [exact H1|]. constructor; [lia|constructor].
Qed.
Lemma opt_field_length k o len : opt_bytes len o -> (length (opt_field k o) <= k + len)%nat.
Proof. intros H. unfold opt_field. destruct o as [l|]; [destruct (H l eq_refl) as [_ L]; rewrite app_length, L|]; rewrite be_bytes_length; lia. Qed.
Lemma opt_some k l : bytes_n k l -> opt_bytes k (Some l).
Proof. intros H l' E. assert (l' = l) as -> by congruence. exact H. Qed.
Definition nonce_state (h : sha256) (msg : option (list Z)) (pk : list Z) (aggpk extra : option (list Z)) : sha256 :=
  let sha := nonce_function_musig_helper h 1 (Some pk) 33 in
  let sha := nonce_function_musig_helper sha 1 aggpk 32 in
  let sha := match msg with
    | Some _ => nonce_function_musig_helper (sha256_write sha [1]) 8 msg 32
    | None => sha256_write sha [0]
    end in
  nonce_function_musig_helper sha 4 extra 32.
Definition m_part (m : option (list Z)) : list Z := match m with Some _ => [1] ++ opt_field 8 m | None => [0] end.
Lemma nonce_state_ok h T msg pk aggpk extra : sha_at h T -> opt_bytes 32 msg -> bytes_n 33 pk -> opt_bytes 32 aggpk -> opt_bytes 32 extra ->
  sha_at (nonce_state h msg pk aggpk extra) ((((T ++ opt_field 1 (Some pk)) ++ opt_field 1 aggpk) ++ m_part msg) ++ opt_field 4 extra).
Proof.
  intros H0 HM HP HA HE. unfold nonce_state. cbv zeta.
  set (h1 := nonce_function_musig_helper h 1 (Some pk) 33). assert (H1 : sha_at h1 (T ++ opt_field 1 (Some pk))) by (apply helper_ok; [exact H0|lia|exact (opt_some _ _ HP)]). clearbody h1.
  set (h2 := nonce_function_musig_helper h1 1 aggpk 32). assert (H2 : sha_at h2 ((T ++ opt_field 1 (Some pk)) ++ opt_field 1 aggpk)) by (apply helper_ok; [exact H1|lia|exact HA]). clearbody h2.
  set (U := (T ++ opt_field 1 (Some pk)) ++ opt_field 1 aggpk) in *. clearbody U.
  apply helper_ok; [|lia|exact HE]. unfold m_part. destruct msg as [m|].
  - rewrite (app_assoc _ [1]). apply helper_ok; [|lia|exact HM]. apply write_at; [exact H2|]. constructor; [lia|constructor].
  - apply write_at; [exact H2|]. constructor; [lia|constructor].
Qed.
Lemma m_part_length m : opt_bytes 32 m -> (length (m_part m) <= 41)%nat.
Proof. intros HM. unfold m_part. destruct m as [m|]; [|cbn; lia]. pose proof (opt_field_length 8 (Some m) 32 HM). rewrite app_length. change (length [1]) with 1%nat. lia. Qed.
Lemma nonce_hash_ok tag h rnd msg pk aggpk extra i : sha_at h (SHA256 tag ++ SHA256 tag) -> bytes_n 32 rnd -> opt_bytes 32 msg -> bytes_n 33 pk -> opt_bytes 32 aggpk -> opt_bytes 32 extra -> 0 <= i < 256 ->
  sha256_finalize (sha256_write (nonce_state (sha256_write h rnd) msg pk aggpk extra) [i]) =
  tagged_hash tag (rnd ++ opt_field 1 (Some pk) ++ opt_field 1 aggpk ++ m_part msg ++ opt_field 4 extra ++ [i]).
Proof.
  intros H [BR LR] HM HP HA HE Hi. rewrite tagged_unfold.
  pose proof (nonce_state_ok _ _ msg pk aggpk extra (write_at _ _ rnd H BR) HM HP HA HE) as H4.
  assert (B1 : byte_list [i]) by (constructor; [lia|constructor]). pose proof (write_at _ _ [i] H4 B1) as H5.
  set (h5 := sha256_write _ [i]) in *. clearbody h5. rewrite <- !app_assoc in H5.
  apply finalize_ok; [exact H5|]. apply tag_len.
  pose proof (m_part_length msg HM) as LM. pose proof (opt_field_length 1 aggpk 32 HA) as LA. pose proof (opt_field_length 4 extra 32 HE) as LE. pose proof (opt_field_length 1 (Some pk) 33 (opt_some _ _ HP)) as LK.
  rewrite !app_length, LR. change (length [i]) with 1%nat. clear -LM LA LE LK. lia.
Qed.
Lemma nonce_rand_ok rand sk : bytes_n 32 rand -> opt_bytes 32 sk ->
  let r := match sk with Some sk => xor32 (tagged_hash (ascii_bytes "MuSig/aux"%string) rand) sk | None => rand end in bytes_n 32 r /\
  match sk with
    | Some sk => xor_bytes (sha256_finalize (sha256_write nonce_function_musig_sha256_tagged_aux (firstn 32 rand))) (firstn 32 sk)
    | None => firstn 32 rand
    end = r.
Proof.
  intros [BR LR] HS. cbv zeta. rewrite (firstn_all2 rand) by lia. destruct sk as [s|]; [|split; [split; assumption|reflexivity]]. destruct (HS s eq_refl) as [BS LS]. rewrite (firstn_all2 s) by lia.
  rewrite (tagged_1 _ (ascii_bytes "MuSig/aux"%string)); [|exact (mid_check_at _ _ mid_musig_aux)|exact BR|rewrite LR; reflexivity].
  destruct (tagged_bytes (ascii_bytes "MuSig/aux"%string) rand) as [BT LT]. set (h := tagged_hash _ rand) in *. clearbody h. change xor32 with xor_bytes.
  split; [split; [now apply xor_byte_list|rewrite xor_length; lia]|reflexivity].
Qed.
Lemma nonce_fun_ok rand msg sk pk aggpk extra : bytes_n 32 rand -> opt_bytes 32 msg -> opt_bytes 32 sk -> bytes_n 33 pk -> opt_bytes 32 aggpk -> opt_bytes 32 extra ->
  exists s1 s2, nonce_function_musig rand msg sk pk aggpk extra = (s1, s2) /\
  (sc_ok s1 /\ sv s1 = nonce_gen_k rand sk pk aggpk msg extra 0) /\ (sc_ok s2 /\ sv s2 = nonce_gen_k rand sk pk aggpk msg extra 1).
Proof.
  intros HR HM HS HP HA HE. destruct (nonce_rand_ok rand sk HR HS) as (BR & ER). unfold nonce_function_musig, nonce_gen_k. rewrite ER. clear ER. cbv zeta.
  set (r := match sk with Some sk => xor32 _ _ | None => rand end) in *. clearbody r.
  pose proof (nonce_hash_ok (ascii_bytes "MuSig/nonce"%string) nonce_function_musig_sha256_tagged r msg pk aggpk extra 0 (mid_check_at _ _ mid_musig_nonce) BR HM HP HA HE ltac:(lia)) as F0.
  pose proof (nonce_hash_ok (ascii_bytes "MuSig/nonce"%string) nonce_function_musig_sha256_tagged r msg pk aggpk extra 1 (mid_check_at _ _ mid_musig_nonce) BR HM HP HA HE ltac:(lia)) as F1.
  unfold nonce_state, m_part in F0, F1. cbv zeta in F0, F1. rewrite F0, F1. eexists _, _. split; [reflexivity|]. split; apply sc_mod_set, tagged_bytes.
Qed.
