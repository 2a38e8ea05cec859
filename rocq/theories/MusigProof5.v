(** MuSig2: encodings, histories of secnonce objects, tweak histories. *)
Require Import ZArith List Bool Lia Field String.
From Verif Require Import NumTheory Spec SpecApi SpecHash SpecBip340 SpecMusig Primes ZmField Curve NField Word Bytes.
From Verif Require Import FieldModel FieldMul FieldProof FieldProof2 FieldBytes FieldOps.
From Verif Require Import ScalarModel ScalarProof ScalarProof2 ScalarMul.
From Verif Require Import GroupModel GroupProof GroupProof2 GroupProof3 GroupProof4 GroupProof5.
From Verif Require Import HashModel HashProof GenModel GenProof EcmultModel EcmultProof EcmultProof2 EcdsaModel ApiModel ApiVocab ApiProof ApiProof2 ApiProof3 EcdsaProof EcdsaProof2 KeyProps KeyProps2 EcdhProof.
From Verif Require Import ExtrakeysModel ExtrakeysProof SchnorrModel SchnorrProof EllswiftProof2 MusigModel MusigVocab MusigProof MusigProof2 MusigProof3 MusigProof4.
Import ListNotations.
Local Open Scope Z_scope.
Local Opaque p n.
Local Notation length := List.length.
Local Opaque SHA256 be_bytes tagged_hash pmul.

(** ** Encodings *)
Lemma parse33 l : bytes_n 33 l ->
  (exists P g, key_point P /\ l = cbytes P /\ eckey_pubkey_parse l = Some g /\ ge_rep f1 g P) \/ ((~ exists P, key_point P /\ l = cbytes P) /\ eckey_pubkey_parse l = None).
Proof.
  intros [BL LL]. destruct (eckey_pubkey_parse l) as [g|] eqn:E.
  - left. destruct (parse_sound _ _ BL E) as (Q & R & EN). exists Q, g. destruct Q as [|x y]; [destruct EN|]. destruct EN as (OC & EN). split; [split; [exact OC|discriminate]|]. split; [|auto].
    cbn [cbytes]. destruct EN as [EN|[EN|EN]]; [exact EN| |]; exfalso; apply (f_equal (@List.length Z)) in EN; revert EN; unfold enc_uncompressed, enc_hybrid; cbn [length]; rewrite app_length, !be_bytes_length, LL; discriminate.
  - right. split; [|reflexivity]. intros (P & (OC & NI) & EP). destruct P as [|x y]; [congruence|]. destruct (parse_complete l (Aff x y)) as (g & E' & _); [split; [exact OC|left; exact EP]|]. congruence.
Qed.
Lemma cbytes_inf P : on_curve P -> cbytes P = repeat 0 33 -> P = Inf.
Proof. intros OC E. destruct P as [|x y]; [reflexivity|]. exfalso. cbn [cbytes] in E. unfold enc_compressed in E. apply (f_equal (hd 0)) in E. cbn [hd repeat] in E. destruct (Z.odd y); discriminate. Qed.
Lemma cbytes_inj P Q : on_curve P -> on_curve Q -> cbytes P = cbytes Q -> P = Q.
Proof.
  intros OP OQ E. destruct P as [|x1 y1]; [symmetry; now apply cbytes_inf|]. destruct Q as [|x2 y2]; [now apply cbytes_inf|]. cbn [cbytes] in E. unfold enc_compressed in E.
  assert (EH : (if Z.odd y1 then 3 else 2) = (if Z.odd y2 then 3 else 2)) by exact (f_equal (hd 0) E). assert (ET : be_bytes 32 x1 = be_bytes 32 x2) by exact (f_equal (@tl Z) E).
  assert (x1 = x2) as ->. { apply (f_equal be_val) in ET. assert (p < 2 ^ 256) by reflexivity. destruct OP as (A & _). destruct OQ as (B & _). rewrite !be_bytes_32_val in ET by lia. exact ET. }
  f_equal. apply (same_x_parity _ _ _ OP OQ). destruct (Z.odd y1), (Z.odd y2); congruence.
Qed.
Lemma parse33_ext l : bytes_n 33 l ->
  (exists P g, on_curve P /\ l = cbytes P /\ musig_ge_parse_ext l = Some g /\ ge_rep f1 g P) \/ ((~ exists P, on_curve P /\ l = cbytes P) /\ musig_ge_parse_ext l = None).
Proof.
  intros BL. unfold musig_ge_parse_ext. pose proof (memcmp_eq l (zeros 33)) as M. rewrite (proj2 BL) in M. specialize (M eq_refl). destruct (memcmp_var l (zeros 33) =? 0).
  - left. exists Inf, ge_infinity. split; [exact I|]. split; [now apply M|]. split; [reflexivity|]. exact (ge_infinity_rep f1).
  - destruct (parse33 l BL) as [(P & g & (OC & _) & E & EG & R)|(N & EN)]; [left; exists P, g; auto|]. right. split; [|exact EN]. intros (P & OC & E). apply N. exists P. split; [|exact E]. split; [exact OC|].
    intros ->. assert (false = true) by (now apply M). discriminate.
Qed.
Lemma split66 l : bytes_n 66 l -> bytes_n 33 (take 0 33 l) /\ bytes_n 33 (take 33 33 l) /\ l = take 0 33 l ++ take 33 33 l.
Proof.
  intros [BL LL]. split; [split; [now apply take_bytes|apply take_length; lia]|]. split; [split; [now apply take_bytes|apply take_length; lia]|].
  unfold take. rewrite skipn_O. rewrite (firstn_all2 (skipn 33 l)) by (rewrite skipn_length; lia). symmetry. apply firstn_skipn.
Qed.
Lemma app_33 (a b c d : list Z) : length a = 33%nat -> length c = 33%nat -> a ++ b = c ++ d -> a = c /\ b = d.
Proof.
  intros LA LC E. split.
  - apply (f_equal (firstn 33)) in E. rewrite !firstn_app, LA, LC, !Nat.sub_diag, !firstn_O, !app_nil_r, !firstn_all2 in E by lia. exact E.
  - apply (f_equal (skipn 33)) in E. rewrite !skipn_app, LA, LC, !Nat.sub_diag, !skipn_O, !skipn_all2 in E by lia. exact E.
Qed.
Theorem pubnonce_parse_ok init inp : bytes_n 66 inp ->
  (exists R1 R2 pn, key_point R1 /\ key_point R2 /\ inp = cbytes R1 ++ cbytes R2 /\ musig_pubnonce_parse (Some init) (Some inp) = mkres 1 0 (Some pn) /\ pubnonce_holds pn R1 R2) \/
  ((~ exists R1 R2, key_point R1 /\ key_point R2 /\ inp = cbytes R1 ++ cbytes R2) /\ musig_pubnonce_parse (Some init) (Some inp) = mkres 0 0 (Some init)).
Proof.
  intros H. destruct (split66 _ H) as (B1 & B2 & E). unfold musig_pubnonce_parse. set (a := take 0 33 inp) in *. set (b := take 33 33 inp) in *. clearbody a b. clear H. subst inp.
  destruct (parse33 a B1) as [(P & g & KP & EA & -> & RG)|(N & ->)].
  2: { right. split; [|reflexivity]. intros (R1 & R2 & K1 & K2 & E). apply N. exists R1. split; [exact K1|]. apply (app_33 a b (cbytes R1) (cbytes R2)); [apply B1|apply cbytes_length|exact E]. }
  destruct (parse33 b B2) as [(Q & h & KQ & EB & -> & RH)|(N & ->)].
  2: { right. split; [|reflexivity]. intros (R1 & R2 & K1 & K2 & E). apply N. exists R2. split; [exact K2|]. apply (app_33 a b (cbytes R1) (cbytes R2)); [apply B1|apply cbytes_length|exact E]. }
  left. exists P, Q, (musig_pubnonce_save g h). split; [exact KP|]. split; [exact KQ|]. split; [now rewrite EA, EB|]. split; [reflexivity|]. apply pubnonce_save_ok; try assumption; [apply KP|apply KQ].
Qed.
Theorem pubnonce_serialize_ok init pn R1 R2 : pubnonce_holds pn R1 R2 -> musig_pubnonce_serialize (Some init) (Some pn) = mkres 1 0 (Some (cbytes R1 ++ cbytes R2)).
Proof.
  intros H. destruct (pubnonce_load_ok _ _ _ H) as (g1 & g2 & E & G1 & G2). destruct H as ((_ & N1) & (_ & N2) & _). unfold musig_pubnonce_serialize. rewrite E. cbv zeta. now rewrite (ser_ok _ _ G1 N1), (ser_ok _ _ G2 N2).
Qed.
Theorem aggnonce_parse_ok init inp : bytes_n 66 inp ->
  (exists R1 R2 an, on_curve R1 /\ on_curve R2 /\ inp = cbytes R1 ++ cbytes R2 /\ musig_aggnonce_parse (Some init) (Some inp) = mkres 1 0 (Some an) /\ aggnonce_holds an R1 R2) \/
  ((~ exists R1 R2, on_curve R1 /\ on_curve R2 /\ inp = cbytes R1 ++ cbytes R2) /\ musig_aggnonce_parse (Some init) (Some inp) = mkres 0 0 (Some init)).
Proof.
  intros H. destruct (split66 _ H) as (B1 & B2 & E). unfold musig_aggnonce_parse. set (a := take 0 33 inp) in *. set (b := take 33 33 inp) in *. clearbody a b. clear H. subst inp.
  destruct (parse33_ext a B1) as [(P & g & KP & EA & -> & RG)|(N & ->)].
  2: { right. split; [|reflexivity]. intros (R1 & R2 & K1 & K2 & E). apply N. exists R1. split; [exact K1|]. apply (app_33 a b (cbytes R1) (cbytes R2)); [apply B1|apply cbytes_length|exact E]. }
  destruct (parse33_ext b B2) as [(Q & h & KQ & EB & -> & RH)|(N & ->)].
  2: { right. split; [|reflexivity]. intros (R1 & R2 & K1 & K2 & E). apply N. exists R2. split; [exact K2|]. apply (app_33 a b (cbytes R1) (cbytes R2)); [apply B1|apply cbytes_length|exact E]. }
  left. exists P, Q, (musig_aggnonce_save g h). split; [exact KP|]. split; [exact KQ|]. split; [now rewrite EA, EB|]. split; [reflexivity|]. now apply aggnonce_save_ok.
Qed.
Theorem aggnonce_serialize_ok init an R1 R2 : aggnonce_holds an R1 R2 -> musig_aggnonce_serialize (Some init) (Some an) = mkres 1 0 (Some (cbytes R1 ++ cbytes R2)).
Proof.
  intros H. destruct (aggnonce_load_ok _ _ _ H) as (g1 & g2 & E & G1 & G2). unfold musig_aggnonce_serialize. rewrite E. now rewrite (ser_ext_ok _ _ G1), (ser_ext_ok _ _ G2).
Qed.
Theorem psig_parse_ok init inp : bytes_n 32 inp ->
  (be_val inp < n /\ exists ps, musig_partial_sig_parse (Some init) (Some inp) = mkres 1 0 (Some ps) /\ psig_holds ps (be_val inp)) \/
  (n <= be_val inp /\ musig_partial_sig_parse (Some init) (Some inp) = mkres 0 0 (Some (repeat 0 36))).
Proof.
  intros B. destruct (sc_set_b32_case _ B) as (K & _ & C). unfold musig_partial_sig_parse. destruct (sc_set_b32 inp) as [s ov]. cbn [fst snd] in *. destruct C as [(L & -> & E)|(L & ->)].
  - left. split; [lia|]. eexists. split; [reflexivity|]. now apply psig_save_ok.
  - right. split; [lia|reflexivity].
Qed.
Theorem psig_serialize_ok init ps v : psig_holds ps v -> musig_partial_sig_serialize (Some init) (Some ps) = mkres 1 0 (Some (be_bytes 32 v)).
Proof.
  intros (RV & ->). pose proof (be_bytes_length 32 v) as L. unfold musig_partial_sig_serialize. set (A := be_bytes 32 v) in *.
  assert (T0 : take 0 4 ([235; 251; 26; 50] ++ A) = partial_sig_magic) by reflexivity.
  assert (T1 : take 4 32 ([235; 251; 26; 50] ++ A) = A). { rewrite (take_drop _ _ 4 0) by reflexivity. now apply take_all. }
  rewrite T0, T1. replace (memcmp_var partial_sig_magic partial_sig_magic =? 0) with true by reflexivity. reflexivity.
Qed.

(** ** A secnonce object signs at most once *)
Lemma zeros_no_load : musig_secnonce_load (repeat 0 132) = None. Proof. reflexivity. Qed.
Lemma sign_zeroes ps sn kp cache session : snd (r_out (musig_partial_sign ps (Some sn) kp cache session)) = Some (repeat 0 132).
Proof.
  unfold musig_partial_sign. cbv zeta. destruct (musig_secnonce_load sn) as [[[k0 k1] g]|]; [|reflexivity].
  destruct ps, kp as [kp|], cache as [cache|], session as [session|]; try reflexivity. destruct (keypair_load kp) as [[ok sk] pk]. destruct (negb ok); [reflexivity|].
  destruct (negb (_ && _)); [reflexivity|]. destruct (keyagg_cache_load cache); [|reflexivity]. destruct (musig_session_load session); reflexivity.
Qed.
Lemma sign_dead ps kp cache session : musig_partial_sign ps (Some (repeat 0 132)) kp cache session = mkres 0 1 (ps, Some (repeat 0 132)). Proof. reflexivity. Qed.
Definition alive (sn : list Z) : nat := match musig_secnonce_load sn with Some _ => 1 | None => 0 end.
Lemma alive_le sn : (alive sn <= 1)%nat. Proof. unfold alive. destruct (musig_secnonce_load sn); lia. Qed.
Lemma ge_to_bytes_length g : length (ge_to_bytes g) = 64%nat. Proof. reflexivity. Qed.
Lemma alive_zeros : alive (repeat 0 132) = 0%nat. Proof. reflexivity. Qed.
Lemma gen_internal_dead ctx pn rand sk pk m cache extra : let r := musig_nonce_gen_internal ctx (zeros 132) pn rand sk pk m cache extra in r_ret r = 1 \/ (r_ret r = 0 /\ fst (r_out r) = repeat 0 132).
Proof.
  cbv zeta. unfold musig_nonce_gen_internal. destruct pn as [pn|]; [|right; split; reflexivity]. destruct pk as [pk|]; [|right; split; reflexivity].
  destruct (negb (g_built (c_gen ctx))); [right; split; reflexivity|].
  destruct (match cache with Some cache => _ | None => Some None end) as [agg|]; [|right; split; reflexivity].
  destruct (pubkey_load pk) as [ok g]. destruct (negb ok); [right; split; reflexivity|]. destruct (nonce_function_musig _ _ _ _ _ _) as [k0 k1].
  set (l := ge_set_all_gej _). clearbody l. set (ret := match sk with Some sk => _ | None => true end). clearbody ret.
  set (sn := musig_secnonce_save k0 k1 g). assert (L : length sn = 132%nat) by (unfold sn, musig_secnonce_save; rewrite !app_length, !sc_get_b32_length, ge_to_bytes_length; reflexivity). clearbody sn.
  unfold musig_secnonce_invalidate. destruct ret; cbn [negb b2z].
  - left. destruct l as [|a [|b [|c l]]]; reflexivity.
  - right. rewrite memczero_true, L. destruct l as [|a [|b [|c l]]]; split; reflexivity.
Qed.
Lemma gen_dead ctx sn pn rand sk pk m cache extra : let r := musig_nonce_gen ctx (Some sn) pn rand sk pk m cache extra in r_ret r = 1 \/ (r_ret r = 0 /\ fst (fst (r_out r)) = Some (repeat 0 132)).
Proof.
  cbv zeta. unfold musig_nonce_gen. destruct rand as [rand|]; [|right; split; reflexivity]. destruct (is_zero_array _); [right; split; reflexivity|].
  pose proof (gen_internal_dead ctx pn rand sk pk m cache extra) as H. cbv zeta in H |- *. set (r := musig_nonce_gen_internal _ _ _ _ _ _ _ _ _) in *. clearbody r. cbn [r_ret r_out fst snd].
  destruct H as [H|[H1 H2]]; [left; exact H|right; rewrite H2; auto].
Qed.
Lemma gen_counter_dead ctx sn pn cnt kp m cache extra : let r := musig_nonce_gen_counter ctx (Some sn) pn cnt kp m cache extra in r_ret r = 1 \/ (r_ret r = 0 /\ fst (r_out r) = Some (repeat 0 132)).
Proof.
  cbv zeta. unfold musig_nonce_gen_counter. destruct kp as [kp|]; [|right; split; reflexivity]. cbv zeta.
  match goal with |- context [musig_nonce_gen_internal ?a ?b ?c ?d ?e ?f ?g ?h ?i] => pose proof (gen_internal_dead a c d e f g h i) as H; cbv zeta in H; set (r := musig_nonce_gen_internal a b c d e f g h i) in * end.
  clearbody r. cbn [r_ret r_out fst snd]. destruct H as [H|[H1 H2]]; [left; now rewrite H|right; rewrite H1, H2; auto].
Qed.
Lemma sign_needs_alive ps sn kp cache session : r_ret (musig_partial_sign ps (Some sn) kp cache session) = 1 -> alive sn = 1%nat.
Proof. unfold alive, musig_partial_sign. cbv zeta. destruct (musig_secnonce_load sn); [reflexivity|]. cbn [r_ret]. discriminate. Qed.
Theorem signed_le_generated ops : forall sn, (signed (run_ops sn ops) <= alive sn + generated (run_ops sn ops))%nat.
Proof.
  induction ops as [|o ops IH]; intros sn; [cbn; lia|]. cbn [run_ops]. cbv zeta. specialize (IH (snd (run_op sn o))). set (rest := run_ops (snd (run_op sn o)) ops) in *. clearbody rest.
  unfold signed, generated in *. cbn [filter fst snd]. destruct o as [ps kp cache session|ctx pn rand sk pk m cache extra|ctx pn cnt kp m cache extra]; cbn [is_sign negb andb]; cbn [run_op fst snd] in *.
  - rewrite sign_zeroes, alive_zeros in IH. pose proof (sign_needs_alive ps sn kp cache session) as A. destruct (r_ret _ =? 1) eqn:E; cbn [length]; [|lia]. apply Z.eqb_eq in E. rewrite (A E). lia.
  - pose proof (gen_dead ctx sn pn rand sk pk m cache extra) as D. cbv zeta in D. set (r := musig_nonce_gen _ _ _ _ _ _ _ _ _) in *. clearbody r. destruct (r_ret r =? 1) eqn:E; cbn [length].
    + pose proof (alive_le (match fst (fst (r_out r)) with Some sn' => sn' | None => sn end)). lia.
    + destruct D as [D|[_ D]]; [apply Z.eqb_neq in E; contradiction|]. rewrite D, alive_zeros in IH. lia.
  - pose proof (gen_counter_dead ctx sn pn cnt kp m cache extra) as D. cbv zeta in D. set (r := musig_nonce_gen_counter _ _ _ _ _ _ _ _) in *. clearbody r. destruct (r_ret r =? 1) eqn:E; cbn [length].
    + pose proof (alive_le (match fst (r_out r) with Some sn' => sn' | None => sn end)). lia.
    + destruct D as [D|[_ D]]; [apply Z.eqb_neq in E; contradiction|]. rewrite D, alive_zeros in IH. lia.
Qed.

(** ** Tweak histories *)
Lemma apply_tweaks_app c l t x : apply_tweaks c (l ++ [(t, x)]) = match apply_tweaks c l with Some c' => apply_tweak c' t x | None => None end.
Proof.
  revert c. induction l as [|[t' x'] l IH]; intros c; cbn [app apply_tweaks]; [destruct (apply_tweak c t x); reflexivity|]. destruct (apply_tweak c t' x'); [apply IH|reflexivity].
Qed.
Lemma res_inv {A} r i (o : A) r' i' o' : mkres r i o = mkres r' i' o' -> r = r' /\ i = i' /\ o = o'.
Proof. intros H. injection H as -> -> ->. auto. Qed.
Lemma history_ok pks Ps cache tws : Forall2 pubkey_holds pks Ps -> 33 * Z.of_nat (length Ps) < 2 ^ 61 - 64 -> key_agg Ps <> Inf -> agg_history pks cache tws ->
  exists c, apply_tweaks (agg_start Ps) (tweak_vals tws) = Some c /\ cache_holds cache Ps c.
Proof.
  intros HP HL NI H. induction H as [agg cache0 ill o cache E|cache tws out tw ill o cache' H IH BT E|cache tws out tw ill o cache' H IH BT E].
  - exists (agg_start Ps). split; [reflexivity|]. destruct Ps as [|P0 Ps]; [inversion HP; subst; exfalso; cbv in E; congruence|].
    destruct (pubkey_agg_ok agg (Some cache0) pks (P0 :: Ps) HP) as (xpk & cache' & E' & _ & H'); [discriminate|exact HL|exact NI|]. rewrite E in E'. apply res_inv in E' as (_ & _ & E'). apply (f_equal snd) in E'. cbn [snd] in E'.
    assert (cache = cache') as -> by congruence. exact H'.
  - destruct IH as (c & EA & HC). unfold tweak_vals in *. rewrite map_app. cbn [map fst snd]. rewrite apply_tweaks_app, EA. pose proof (tweak_add_ok out cache Ps c tw false HC BT) as T. unfold musig_pubkey_ec_tweak_add in E.
    destruct (apply_tweak c (be_val tw) false) as [c'|]; [|rewrite E in T; apply res_inv in T as (T & _); discriminate]. destruct T as (pk & cache2 & T & _ & HC'). exists c'. split; [reflexivity|].
    rewrite E in T. apply res_inv in T as (_ & _ & T). apply (f_equal snd) in T. cbn [snd] in T. assert (cache' = cache2) as -> by congruence. exact HC'.
  - destruct IH as (c & EA & HC). unfold tweak_vals in *. rewrite map_app. cbn [map fst snd]. rewrite apply_tweaks_app, EA. pose proof (tweak_add_ok out cache Ps c tw true HC BT) as T. unfold musig_pubkey_xonly_tweak_add in E.
    destruct (apply_tweak c (be_val tw) true) as [c'|]; [|rewrite E in T; apply res_inv in T as (T & _); discriminate]. destruct T as (pk & cache2 & T & _ & HC'). exists c'. split; [reflexivity|].
    rewrite E in T. apply res_inv in T as (_ & _ & T). apply (f_equal snd) in T. cbn [snd] in T. assert (cache' = cache2) as -> by congruence. exact HC'.
Qed.
Definition agg_inv (Q0 : point) (c : aggctx) : Prop :=
  on_curve (ac_Q c) /\ ac_Q c <> Inf /\ (ac_gacc c = 1 \/ ac_gacc c = -1) /\ 0 <= ac_tacc c < n /\ ac_Q c = padd (pmul (ac_gacc c) Q0) (pmul (ac_tacc c) G).
Lemma apply_tweak_inv Q0 c t x c' : on_curve Q0 -> agg_inv Q0 c -> apply_tweak c t x = Some c' -> agg_inv Q0 c'.
Proof.
  intros O0 (OC & NI & HG & HT & EQ). unfold apply_tweak. cbv zeta. set (g := if x && Z.odd (ycoord (ac_Q c)) then -1 else 1). assert (HGG : g = 1 \/ g = -1) by (unfold g; destruct (x && _); auto). clearbody g.
  destruct (n <=? t); [discriminate|]. set (Q := padd (pmul g (ac_Q c)) (pmul t G)). assert (OQ : on_curve Q) by (unfold Q; auto with curve).
  assert (E2 : Q = padd (pmul (g * ac_gacc c) Q0) (pmul ((t + g * ac_tacc c) mod n) G)).
  { unfold Q. rewrite EQ. destruct (all_points_multiples_of_G Q0 O0) as (q & _ & ->). rewrite !K_mul, !K_add, !K_mul, !K_add. apply NField.K_eq. push_toN. ring. }
  destruct Q as [|qx qy] eqn:EQQ; [discriminate|]. intros E. assert (c' = mkaggctx (Aff qx qy) (g * ac_gacc c) ((t + g * ac_tacc c) mod n)) as -> by congruence. cbn [ac_Q ac_gacc ac_tacc].
  split; [exact OQ|]. split; [discriminate|]. split; [clear -HG HGG; destruct HG as [-> | ->], HGG as [-> | ->]; auto|]. split; [apply Z.mod_pos_bound, n_pos|]. exact E2.
Qed.
Lemma apply_tweaks_inv Q0 tws : forall c c', on_curve Q0 -> agg_inv Q0 c -> apply_tweaks c tws = Some c' -> agg_inv Q0 c'.
Proof.
  induction tws as [|[t x] tws IH]; intros c c' O0 H E; cbn [apply_tweaks] in E; [now assert (c = c') as <- by congruence|]. destruct (apply_tweak c t x) as [c1|] eqn:E1; [|discriminate].
  apply (IH c1); [exact O0| |exact E]. exact (apply_tweak_inv _ _ _ _ _ O0 H E1).
Qed.
Lemma key_agg_oc Ps : Forall key_point Ps -> on_curve (key_agg Ps).
Proof. intros H. unfold key_agg. apply psum_oc. set (f := key_coef Ps). clearbody f. induction H as [|P l [O _] _ IH]; constructor; auto with curve. Qed.
Lemma agg_start_inv Ps : Forall key_point Ps -> key_agg Ps <> Inf -> agg_inv (key_agg Ps) (agg_start Ps).
Proof.
  intros H NI. pose proof (key_agg_oc _ H) as O. unfold agg_inv, agg_start. cbn [ac_Q ac_gacc ac_tacc]. split; [exact O|]. split; [exact NI|]. split; [now left|]. split; [split; [lia|exact n_pos]|].
  rewrite pmul_1. change (pmul 0 G) with Inf. now rewrite padd_Inf_r.
Qed.
Lemma history_inv pks Ps cache tws : Forall2 pubkey_holds pks Ps -> 33 * Z.of_nat (length Ps) < 2 ^ 61 - 64 -> key_agg Ps <> Inf -> agg_history pks cache tws ->
  exists c, apply_tweaks (agg_start Ps) (tweak_vals tws) = Some c /\ cache_holds cache Ps c /\ agg_inv (key_agg Ps) c.
Proof.
  intros HP HL NI H. destruct (history_ok _ _ _ _ HP HL NI H) as (c & E & HC). exists c. split; [exact E|]. split; [exact HC|]. pose proof (Forall2_key _ _ HP) as KP.
  apply (apply_tweaks_inv (key_agg Ps) (tweak_vals tws) (agg_start Ps)); [now apply key_agg_oc|now apply agg_start_inv|exact E].
Qed.
