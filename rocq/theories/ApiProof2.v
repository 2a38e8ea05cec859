(** Public key parsing and serialization. *)
Require Import ZArith List Bool Lia.
From Verif Require Import NumTheory Spec SpecApi Primes ZmField Curve Word Bytes.
From Verif Require Import FieldModel FieldMul FieldProof FieldProof2 FieldBytes FieldOps.
From Verif Require Import ScalarModel ScalarProof ScalarProof2 ScalarMul.
From Verif Require Import GroupModel GroupProof GroupProof2 GroupProof3 GroupProof4 GroupProof5.
From Verif Require Import HashModel GenModel GenProof EcmultModel EcmultProof EcmultProof2 EcdsaModel ApiModel ApiProof.
Import ListNotations.
Local Open Scope Z_scope.

Lemma same_x_parity x y1 y2 : on_curve (Aff x y1) -> on_curve (Aff x y2) -> Z.odd y1 = Z.odd y2 -> y1 = y2.
Proof.
  intros H1 H2 E. destruct (same_x_points _ _ _ H1 H2) as [?|S]; [assumption|exfalso].
  apply (f_equal Z.odd) in S. rewrite Z.odd_add, E in S. destruct (Z.odd y2); discriminate S.
Qed.
Lemma bytes_x l : bytes_n 32 l -> be_bytes 32 (be_val l) = l.
Proof. intros [H L]. rewrite <- L. now apply be_bytes_be_val. Qed.
Lemma x32 x : 0 <= x < p -> be_val (be_bytes 32 x) = x.
Proof. intros H. apply be_bytes_32_val. assert (p < 2 ^ 256) by reflexivity. lia. Qed.
Lemma set_limit_case l : bytes_n 32 l ->
  (be_val l < p /\ fst (fe_set_b32_limit l) = true /\ fe_norm (snd (fe_set_b32_limit l)) /\ zv (fv (snd (fe_set_b32_limit l))) = be_val l) \/
  (p <= be_val l /\ fst (fe_set_b32_limit l) = false).
Proof.
  intros [H L]. destruct (fe_set_b32_limit_ok l H L) as [E _]. destruct (be_val l <? p) eqn:C.
  - left. apply Z.ltb_lt in C. destruct (fe_set_b32_limit_norm l H L E) as [N V]. split; [exact C|]. split; [exact E|]. split; [exact N|].
    unfold fv. rewrite V, zv_toF. apply Z.mod_small. split; [apply (be_val_32 l H L)|exact C].
  - right. apply Z.ltb_ge in C. auto.
Qed.
Lemma norm_mag_k k a : fe_norm a -> 1 <= k -> fe_mag k a.
Proof. intros H K. eapply mag_weaken; [apply fe_norm_mag, H|exact K]. Qed.

(** Decompression of an x coordinate given as bytes. *)
Lemma set_xo_sound l o : bytes_n 32 l -> fst (fe_set_b32_limit l) = true -> fst (ge_set_xo_var (snd (fe_set_b32_limit l)) o) = true ->
  exists y, ge_rep f1 (snd (ge_set_xo_var (snd (fe_set_b32_limit l)) o)) (Aff (be_val l) y) /\ Z.odd y = o /\ be_val l < p.
Proof.
  intros H E1 E2. destruct (set_limit_case l H) as [(C & _ & N & V)|(_ & E)]; [|congruence].
  destruct (ge_set_xo_var_ok (snd (fe_set_b32_limit l)) o (norm_mag_k 4 _ N ltac:(lia))) as (_ & _ & _ & _ & S).
  destruct (S E2) as (y & R & O). rewrite V in R. exists y. auto.
Qed.
Lemma on_curve_square x y : on_curve (Aff x y) -> is_square_mod_p (x * x * x + 7).
Proof. intros (_ & _ & E). exists y. exact E. Qed.
Lemma set_xo_complete x y : on_curve (Aff x y) ->
  fst (fe_set_b32_limit (be_bytes 32 x)) = true /\
  fst (ge_set_xo_var (snd (fe_set_b32_limit (be_bytes 32 x))) (Z.odd y)) = true /\
  ge_rep f1 (snd (ge_set_xo_var (snd (fe_set_b32_limit (be_bytes 32 x))) (Z.odd y))) (Aff x y).
Proof.
  intros OC. pose proof OC as (RX & RY & _). assert (B : bytes_n 32 (be_bytes 32 x)) by (split; [apply be_bytes_byte_list|apply be_bytes_length]).
  destruct (set_limit_case _ B) as [(C & E & N & V)|(C & _)]; rewrite x32 in * by assumption; [|lia].
  destruct (ge_set_xo_var_ok (snd (fe_set_b32_limit (be_bytes 32 x))) (Z.odd y) (norm_mag_k 4 _ N ltac:(lia))) as (SQ & _ & _ & _ & S).
  rewrite V in SQ, S. split; [exact E|]. assert (T : fst (ge_set_xo_var (snd (fe_set_b32_limit (be_bytes 32 x))) (Z.odd y)) = true) by (apply SQ, (on_curve_square _ _ OC)).
  split; [exact T|]. destruct (S T) as (y' & R & O). rewrite (same_x_parity x y' y (ge_rep_oc _ _ _ R) OC O) in R. exact R.
Qed.

Lemma len_cons {A} (l : list A) k : length l = S k -> exists a l', l = a :: l' /\ length l' = k.
Proof. destruct l as [|a l']; [discriminate|]. intros H. exists a, l'. split; [reflexivity|]. now injection H. Qed.
Lemma bytes_n_cons k b l : bytes_n (S k) (b :: l) -> 0 <= b < 256 /\ bytes_n k l.
Proof. intros [H L]. apply byte_list_cons in H as [Hb H]. split; [exact Hb|]. split; [exact H|now injection L]. Qed.
Lemma bytes_n_split j k l : bytes_n (j + k) l -> bytes_n j (firstn j l) /\ bytes_n k (skipn j l).
Proof.
  intros [H L]. split; (split; [now apply byte_list_firstn || now apply byte_list_skipn|]).
  - rewrite firstn_length. lia.
  - rewrite skipn_length. lia.
Qed.
Lemma bytes_n_app j k a b : bytes_n j a -> bytes_n k b -> bytes_n (j + k) (a ++ b).
Proof. intros [H L] [H' L']. split; [apply byte_list_app; auto|]. rewrite app_length. lia. Qed.
Lemma bytes_n_be k v : bytes_n k (be_bytes k v).
Proof. split; [apply be_bytes_byte_list|apply be_bytes_length]. Qed.

Lemma parse_sound inp g : byte_list inp -> eckey_pubkey_parse inp = Some g -> exists Q, ge_rep f1 g Q /\ encodes_point inp Q.
Proof.
  intros H. unfold eckey_pubkey_parse. cbv zeta.
  destruct (Nat.eqb (length inp) 33) eqn:L33; cbn [andb].
  - apply Nat.eqb_eq in L33. destruct (len_cons _ _ L33) as (t & l & -> & L). cbn [nth skipn length].
    assert (B : bytes_n 32 l) by (split; [now apply byte_list_cons in H|exact L]).
    rewrite firstn_all2 by lia.
    destruct ((t =? 2) || (t =? 3)) eqn:T; cbn [andb].
    + destruct (fe_set_b32_limit l) as [ok x] eqn:EL. destruct ok; [|discriminate].
      destruct (ge_set_xo_var x (t =? 3)) as [ok elem] eqn:EX. destruct ok; [|discriminate]. intros E; injection E as <-.
      assert (Ex : x = snd (fe_set_b32_limit l)) by now rewrite EL.
      destruct (set_xo_sound l (t =? 3) B) as (y & R & O & LT); [now rewrite EL|now rewrite <- Ex, EX|].
      rewrite <- Ex, EX in R. cbn [snd] in R. exists (Aff (be_val l) y). split; [exact R|].
      split; [exact (ge_rep_oc _ _ _ R)|]. left. unfold enc_compressed. rewrite O, bytes_x by exact B. f_equal.
      apply orb_true_iff in T as [T|T]; apply Z.eqb_eq in T; subst t; reflexivity.
    + rewrite L. cbn. discriminate.
  - destruct (Nat.eqb (length inp) 65) eqn:L65; cbn [andb]; [|discriminate].
    apply Nat.eqb_eq in L65. destruct (len_cons _ _ L65) as (t & l & -> & L). change (skipn 33 (t :: l)) with (skipn 32 l). change (skipn 1 (t :: l)) with l. change (nth 0 (t :: l) 0) with t.
    assert (B : bytes_n (32 + 32) l) by (split; [now apply byte_list_cons in H|exact L]).
    destruct (bytes_n_split 32 32 l B) as [B1 B2].
    replace (firstn 32 (skipn 32 l)) with (skipn 32 l) by (rewrite firstn_all2; [reflexivity|rewrite skipn_length; lia]).
    destruct ((t =? 4) || (t =? 6) || (t =? 7)) eqn:T; [|discriminate].
    pose proof (set_limit_case _ B1) as C1. pose proof (set_limit_case _ B2) as C2.
    destruct (fe_set_b32_limit (firstn 32 l)) as [okx x]. destruct (fe_set_b32_limit (skipn 32 l)) as [oky y]. cbn [fst snd] in *.
    destruct C1 as [(R1 & -> & N1 & V1)|(_ & ->)]; [|cbn [negb orb]; discriminate]. destruct C2 as [(R2 & -> & N2 & V2)|(_ & ->)]; [|cbn [negb orb]; intros E; discriminate E]. cbn [negb orb].
    destruct ((_ || _) && negb (Bool.eqb _ _)) eqn:HY; [discriminate|].
    destruct (ge_is_valid_var (ge_set_xy x y)) eqn:GV; [|discriminate]. intros E; injection E as <-.
    assert (M1 : fe_mag 4 (gx (ge_set_xy x y))) by (apply norm_mag_k; [exact N1|lia]).
    assert (M2 : fe_mag 3 (gy (ge_set_xy x y))) by (apply norm_mag_k; [exact N2|lia]).
    pose proof (proj1 (ge_is_valid_var_ok _ M1 M2 eq_refl) GV) as OC. change (gx (ge_set_xy x y)) with x in OC, M1. change (gy (ge_set_xy x y)) with y in OC, M2.
    rewrite V1, V2 in OC.
    exists (Aff (be_val (firstn 32 l)) (be_val (skipn 32 l))). split.
    { apply ge_rep1_intro; try assumption; try reflexivity.
      - change (gx (ge_set_xy x y)) with x. now rewrite <- V1, toF_zv.
      - change (gy (ge_set_xy x y)) with y. now rewrite <- V2, toF_zv. }
    split; [exact OC|]. right. unfold enc_uncompressed, enc_hybrid. rewrite !bytes_x, firstn_skipn by assumption.
    assert (OY : fe_is_odd y = Z.odd (be_val (skipn 32 l))).
    { rewrite fe_is_odd_spec by exact N2. f_equal. unfold fv in V2. rewrite zv_toF, Z.mod_small in V2; [exact V2|exact (fval_norm_range _ N2)]. }
    rewrite OY in HY. apply orb_true_iff in T as [T|T]; [apply orb_true_iff in T as [T|T]|]; apply Z.eqb_eq in T; subst t.
    + left. reflexivity.
    + right. destruct (Z.odd _); [discriminate HY|reflexivity].
    + right. destruct (Z.odd _); [reflexivity|discriminate HY].
Qed.

Lemma parse_complete inp Q : encodes_point inp Q -> exists g, eckey_pubkey_parse inp = Some g /\ ge_rep f1 g Q.
Proof.
  destruct Q as [|x y]; [intros []|]. intros [OC E]. pose proof OC as (RX & RY & _).
  assert (C : inp = enc_compressed x y \/ exists t, inp = t :: be_bytes 32 x ++ be_bytes 32 y /\ (t = 4 \/ t = if Z.odd y then 7 else 6)).
  { destruct E as [E|[E|E]]; [left; exact E|right; exists 4; auto|right; eexists; split; [exact E|now right]]. }
  clear E. destruct C as [-> |(t & -> & T)].
  - unfold enc_compressed, eckey_pubkey_parse. cbn [nth skipn length]. rewrite be_bytes_length, firstn_all2 by (rewrite be_bytes_length; lia). cbv zeta.
    destruct (set_xo_complete x y OC) as (E1 & E2 & R). destruct (fe_set_b32_limit (be_bytes 32 x)) as [ok xx]. cbn [fst snd] in *. subst ok.
    change (Nat.eqb 33 33) with true. destruct (Z.odd y).
    + change ((3 =? 2) || (3 =? 3)) with true. change (3 =? 3) with true. cbn [andb].
      destruct (ge_set_xo_var xx true) as [ok elem]. cbn [fst snd] in *. subst ok. exists elem. auto.
    + change ((2 =? 2) || (2 =? 3)) with true. change (2 =? 3) with false. cbn [andb].
      destruct (ge_set_xo_var xx false) as [ok elem]. cbn [fst snd] in *. subst ok. exists elem. auto.
  - unfold eckey_pubkey_parse. set (l := be_bytes 32 x ++ be_bytes 32 y). change (skipn 33 (t :: l)) with (skipn 32 l). change (skipn 1 (t :: l)) with l.
    change (nth 0 (t :: l) 0) with t. cbn [length]. subst l. rewrite app_length, !be_bytes_length.
    change (Nat.eqb (S (32 + 32)) 33) with false. change (Nat.eqb (S (32 + 32)) 65) with true. cbv zeta. cbn [andb].
    rewrite firstn_app, be_bytes_length, firstn_all2 by (rewrite be_bytes_length; lia). change (32 - 32)%nat with 0%nat. rewrite firstn_O, app_nil_r.
    rewrite skipn_app, be_bytes_length, skipn_all2 by (rewrite be_bytes_length; lia). change (32 - 32)%nat with 0%nat. rewrite skipn_O. cbn [app].
    rewrite firstn_all2 by (rewrite be_bytes_length; lia).
    pose proof (set_limit_case _ (bytes_n_be 32 x)) as C1. pose proof (set_limit_case _ (bytes_n_be 32 y)) as C2.
    destruct (fe_set_b32_limit (be_bytes 32 x)) as [okx xx]. destruct (fe_set_b32_limit (be_bytes 32 y)) as [oky yy]. cbn [fst snd] in *.
    rewrite x32 in C1, C2 by assumption.
    destruct C1 as [(_ & -> & N1 & V1)|(C & ->)]; [|lia]. destruct C2 as [(_ & -> & N2 & V2)|(C & ->)]; [|lia]. cbn [negb orb].
    assert (OY : fe_is_odd yy = Z.odd y).
    { rewrite fe_is_odd_spec by exact N2. f_equal. unfold fv in V2. rewrite zv_toF, Z.mod_small in V2; [exact V2|exact (fval_norm_range _ N2)]. }
    assert (M1 : fe_mag 4 xx) by (apply norm_mag_k; [exact N1|lia]). assert (M2 : fe_mag 3 yy) by (apply norm_mag_k; [exact N2|lia]).
    assert (GV : ge_is_valid_var (ge_set_xy xx yy) = true).
    { apply ge_is_valid_var_ok; [exact M1|exact M2|reflexivity|]. change (gx (ge_set_xy xx yy)) with xx. change (gy (ge_set_xy xx yy)) with yy. now rewrite V1, V2. }
    assert (R : ge_rep f1 (ge_set_xy xx yy) (Aff x y)).
    { apply ge_rep1_intro; try assumption; try reflexivity.
      - change (gx (ge_set_xy xx yy)) with xx. now rewrite <- V1, toF_zv.
      - change (gy (ge_set_xy xx yy)) with yy. now rewrite <- V2, toF_zv. }
    exists (ge_set_xy xx yy). split; [|exact R]. rewrite OY, GV.
    destruct T as [-> | ->]; [reflexivity|]. destruct (Z.odd y); reflexivity.
Qed.

Lemma encodes_point_fun inp Q R : encodes_point inp Q -> encodes_point inp R -> Q = R.
Proof.
  intros H1 H2. destruct (parse_complete _ _ H1) as (g & E & R1). destruct (parse_complete _ _ H2) as (g' & E' & R2).
  rewrite E in E'. injection E' as <-. exact (ge_rep_fun _ _ _ _ f1_nz R1 R2).
Qed.

(** ** C10 *)
Lemma pubkey_parse_ok init inp : byte_list inp ->
  (exists Q pk, encodes_point inp Q /\ pubkey_holds pk Q /\ ec_pubkey_parse (Some init) (Some inp) = mkres 1 0 (Some pk)) \/
  ((forall Q, ~ encodes_point inp Q) /\ ec_pubkey_parse (Some init) (Some inp) = mkres 0 0 (Some (repeat 0 64))).
Proof.
  intros H. unfold ec_pubkey_parse. destruct (eckey_pubkey_parse inp) as [g|] eqn:E.
  - left. destruct (parse_sound _ _ H E) as (Q & R & EP). exists Q, (pubkey_save g). split; [exact EP|]. split; [|reflexivity].
    apply pubkey_save_ok; [exact R|]. destruct Q; [destruct EP|discriminate].
  - right. split; [|reflexivity]. intros Q EP. destruct (parse_complete _ _ EP) as (g & E' & _). congruence.
Qed.

(** ** C11 *)
Lemma serialize_ok g x y c : ge_rep f1 g (Aff x y) -> eckey_pubkey_serialize g c = Some (if c then enc_compressed x y else enc_uncompressed x y).
Proof.
  intros R. pose proof R as (M1 & M2 & OC & _). unfold eckey_pubkey_serialize, ge_is_infinity. destruct (ge_rep1_aff _ _ _ R) as (-> & _ & _). cbv zeta.
  rewrite !fe_normalize_var_eq by (eapply mag_weaken; [eassumption|lia]).
  destruct (ge_rep_zv _ _ _ R) as [EX EY].
  assert (NX : fe_norm (fe_normalize (gx g))) by (apply fe_normalize_norm; eapply mag_weaken; [eassumption|lia]).
  assert (NY : fe_norm (fe_normalize (gy g))) by (apply fe_normalize_norm; eapply mag_weaken; [eassumption|lia]).
  rewrite !fe_get_b32_ok, fe_is_odd_spec, EX, EY by assumption. destruct c; reflexivity.
Qed.
Lemma fe_get_b32_length a : length (fe_get_b32 a) = 32%nat. Proof. reflexivity. Qed.
Lemma Some_inj {A} (a b : A) : Some a = Some b -> a = b. Proof. intros E. now injection E. Qed.
Lemma serialize_length g c l : eckey_pubkey_serialize g c = Some l -> length l = (if c then 33 else 65)%nat.
Proof.
  unfold eckey_pubkey_serialize. destruct (ge_is_infinity g); [discriminate|]. destruct c; intros E; apply Some_inj in E; rewrite <- E; clear E; cbn [length].
  - now rewrite fe_get_b32_length.
  - now rewrite app_length, !fe_get_b32_length.
Qed.
Lemma wr_n_some buf i d : 0 <= i -> i + Z.of_nat (length d) <= Z.of_nat (length buf) -> wr_n buf i d = Some (copy_at (Z.to_nat i) d buf).
Proof.
  intros H1 H2. unfold wr_n. destruct (0 <=? i) eqn:E1; [|apply Z.leb_gt in E1; lia]. destruct (_ <=? Z.of_nat (length buf)) eqn:E2; [reflexivity|].
  apply Z.leb_gt in E2. lia.
Qed.
Lemma copy_at_0 d buf : (length d <= length buf)%nat -> copy_at 0 d buf = d ++ skipn (length d) buf.
Proof. intros H. unfold copy_at. rewrite firstn_O. reflexivity. Qed.
Lemma skipn_repeat {A} (a : A) j : forall k, skipn j (repeat a k) = repeat a (k - j).
Proof. induction j as [|j IH]; intros k; [now rewrite skipn_O, Nat.sub_0_r|]. destruct k as [|k]; [reflexivity|]. cbn [repeat skipn Nat.sub]. apply IH. Qed.

(** The output buffer after a successful call with *outputlen = len. *)
Lemma ser_buf enc len buf : Z.of_nat (length enc) <= len -> len <= Z.of_nat (length buf) ->
  exists b1, wr_n buf 0 (repeat 0 (Z.to_nat len)) = Some b1 /\
  wr_n b1 0 enc = Some (enc ++ repeat 0 (Z.to_nat len - length enc) ++ skipn (Z.to_nat len) buf).
Proof.
  intros H1 H2. rewrite (wr_n_some buf) by (rewrite ?repeat_length; lia). eexists. split; [reflexivity|].
  change (Z.to_nat 0) with 0%nat. rewrite copy_at_0 by (rewrite repeat_length; lia). rewrite repeat_length.
  rewrite wr_n_some by (rewrite ?app_length, ?repeat_length, ?skipn_length; lia). f_equal. change (Z.to_nat 0) with 0%nat.
  rewrite copy_at_0 by (rewrite app_length, repeat_length, skipn_length; lia). f_equal.
  rewrite skipn_app, skipn_repeat, repeat_length. f_equal.
  replace (length enc - Z.to_nat len)%nat with 0%nat by lia. apply skipn_O.
Qed.
Lemma pubkey_serialize_ok buf len pk x y flags : pubkey_holds pk (Aff x y) -> Z.land flags 0xFF = 2 ->
  let enc := if Z.land flags 256 =? 0 then enc_uncompressed x y else enc_compressed x y in
  Z.of_nat (length enc) <= len -> len <= Z.of_nat (length buf) ->
  ec_pubkey_serialize (Some buf) (Some len) (Some pk) flags =
  Some (mkres 1 0 (Some (enc ++ repeat 0 (Z.to_nat len - length enc) ++ skipn (Z.to_nat len) buf), Some (Z.of_nat (length enc)))).
Proof.
  intros H F enc L1 L2. destruct (ser_buf enc len buf L1 L2) as (b1 & E1 & E2).
  assert (LE : length enc = (if Z.land flags 256 =? 0 then 65%nat else 33%nat)).
  { subst enc. destruct (_ =? 0); cbn [length enc_compressed enc_uncompressed]; unfold enc_uncompressed, enc_compressed; cbn [length]; rewrite ?app_length, !be_bytes_length; reflexivity. }
  unfold ec_pubkey_serialize. rewrite F, E1. cbv zeta.
  assert (LL : (len >=? (if negb (Z.land flags 256 =? 0) then 33 else 65)) = true).
  { rewrite Z.geb_leb. apply Z.leb_le. destruct (Z.land flags 256 =? 0); cbn [negb]; lia. }
  rewrite LL. cbn [negb]. change (2 =? 2) with true. cbn [negb].
  destruct (pubkey_load_ok pk _ H) as (PL & R & _). destruct (pubkey_load pk) as [ok g]. cbn [fst snd] in *. subst ok.
  rewrite (serialize_ok _ _ _ _ R).
  replace (if negb (Z.land flags 256 =? 0) then enc_compressed x y else enc_uncompressed x y) with enc by (subst enc; destruct (_ =? 0); reflexivity).
  rewrite E2. reflexivity.
Qed.
(** No memory is touched outside the first *outputlen bytes of the buffer, whatever the object and flags. *)
Lemma pubkey_serialize_safe buf len pk flags : 0 <= len <= Z.of_nat (length buf) ->
  exists r, ec_pubkey_serialize (Some buf) (Some len) pk flags = Some r /\
    exists buf' len', r_out r = (Some buf', Some len') /\ length buf' = length buf /\ skipn (Z.to_nat len) buf' = skipn (Z.to_nat len) buf.
Proof.
  intros L. unfold ec_pubkey_serialize. cbv zeta.
  destruct (len >=? _) eqn:G; cbn [negb].
  2: { eexists. split; [reflexivity|]. cbn [arg_fail r_out]. eexists _, _. split; [reflexivity|]. auto. }
  rewrite Z.geb_leb in G. apply Z.leb_le in G.
  rewrite wr_n_some by (rewrite ?repeat_length; lia). change (Z.to_nat 0) with 0%nat. rewrite copy_at_0 by (rewrite repeat_length; lia). rewrite repeat_length.
  set (b1 := repeat 0 (Z.to_nat len) ++ skipn (Z.to_nat len) buf).
  assert (B1 : length b1 = length buf /\ skipn (Z.to_nat len) b1 = skipn (Z.to_nat len) buf).
  { subst b1. rewrite app_length, repeat_length, skipn_length. split; [lia|]. rewrite skipn_app, skipn_repeat, repeat_length, Nat.sub_diag.
    reflexivity. }
  destruct pk as [pk|]; [|eexists; split; [reflexivity|]; eexists _, _; split; [reflexivity|exact B1]].
  destruct (Z.land flags 255 =? 2); cbn [negb]; [|eexists; split; [reflexivity|]; eexists _, _; split; [reflexivity|exact B1]].
  destruct (pubkey_load pk) as [ok g]. destruct ok; [|eexists; split; [reflexivity|]; eexists _, _; split; [reflexivity|exact B1]].
  destruct (eckey_pubkey_serialize g _) as [enc|] eqn:ES; [|eexists; split; [reflexivity|]; eexists _, _; split; [reflexivity|exact B1]].
  pose proof (serialize_length _ _ _ ES) as LE.
  assert (LE' : Z.of_nat (length enc) <= len) by (rewrite LE; destruct (negb _); lia).
  rewrite wr_n_some by lia. change (Z.to_nat 0) with 0%nat. rewrite copy_at_0 by lia.
  eexists. split; [reflexivity|]. eexists _, _. split; [reflexivity|]. destruct B1 as [B1 B2]. rewrite app_length, skipn_length. split; [lia|].
  rewrite skipn_app, skipn_all2 by lia. cbn [app]. rewrite skipn_add. replace (length enc + (Z.to_nat len - length enc))%nat with (Z.to_nat len) by lia. exact B2.
Qed.
(** Parsing what was serialized gives the same object back. *)
Lemma encodes_compressed x y : on_curve (Aff x y) -> encodes_point (enc_compressed x y) (Aff x y).
Proof. intros H. split; auto. Qed.
Lemma encodes_uncompressed x y : on_curve (Aff x y) -> encodes_point (enc_uncompressed x y) (Aff x y).
Proof. intros H. split; auto. Qed.
Lemma parse_of_encoding inp Q init : encodes_point inp Q -> exists pk, ec_pubkey_parse (Some init) (Some inp) = mkres 1 0 (Some pk) /\ pubkey_holds pk Q.
Proof.
  intros H. destruct (parse_complete _ _ H) as (g & E & R). unfold ec_pubkey_parse. rewrite E. exists (pubkey_save g). split; [reflexivity|].
  apply pubkey_save_ok; [exact R|]. destruct Q; [destruct H|discriminate].
Qed.
