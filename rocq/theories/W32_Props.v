(** C57: the two builds give the same answers. *)
Require Import ZArith List Bool Lia.
From Verif Require Import Word Bytes Spec SpecApi FieldModel ScalarModel FieldBytes ScalarProof ScalarProof2 Scalar32Model Scalar32Ops GroupModel GenModel EcmultModel EcdsaModel EcdsaProof HashModel GroupProof5 ApiModel ApiVocab RecoveryModel EcdhModel HsortModel ExtrakeysModel SchnorrModel EllswiftModel MusigModel CallsVocab KeyProps KeyProps2
  W32_Base W32_Group W32_Ecmult W32_Gen W32_Ecdsa W32_Api W32_Extrakeys W32_Schnorr W32_Recovery W32_Ecdh W32_Ellswift W32_Hsort W32_Musig W32_Vocab
  W32_SimEcdsa W32_SimApi W32_SimExtra W32_SimModules W32_SimMusig.
Import ListNotations.
Local Open Scope Z_scope.

Lemma opt_of {A} (P : A -> Prop) o : optional P o -> forall l, o = Some l -> P l.
Proof. intros H l E. rewrite E in H. exact H. Qed.
Lemma opt_list k pks : optional (Forall (optional (bytes_n k))) pks -> forall l, pks = Some l -> Forall (opt_bytes k) l.
Proof. intros H l E. rewrite E in H. cbn in H. revert H. apply Forall_impl. intros o. exact (opt_of (bytes_n k) o). Qed.
Ltac fin := first [assumption | match goal with H : optional ?P ?o |- _ => first [exact (opt_of P o H) | exact (opt_list 64 o H)] end].
Lemma same_answer c c' k : rctx c c' -> call_typed k -> answer32 c k = answer64 c' k.
Proof.
  intros Hc T. destruct k; cbn [call_typed answer32 answer64] in T |- *.
  - rewrite a_pubkey_parse; [reflexivity|fin].
  - rewrite a_pubkey_serialize; [reflexivity|fin].
  - destruct T. rewrite a_pubkey_cmp; [reflexivity|fin..].
  - rewrite a_pubkey_sort; [reflexivity|fin].
  - rewrite a_parse_der; [reflexivity|fin].
  - rewrite a_parse_compact; [reflexivity|fin].
  - rewrite a_serialize_der; [reflexivity|fin].
  - rewrite a_serialize_compact; [reflexivity|fin].
  - rewrite a_normalize; [reflexivity|fin].
  - destruct T as (? & ? & ?). rewrite a_verify; [reflexivity|fin..].
  - destruct T as (? & ? & ?). rewrite (a_sign fuel c c'); [reflexivity|fin..].
  - rewrite a_seckey_verify; [reflexivity|fin].
  - rewrite (a_pubkey_create c c'); [reflexivity|fin..].
  - rewrite a_seckey_negate; [reflexivity|fin].
  - rewrite a_pubkey_negate; [reflexivity|fin].
  - destruct T. rewrite a_seckey_tweak_add; [reflexivity|fin..].
  - destruct T. rewrite a_pubkey_tweak_add; [reflexivity|fin..].
  - destruct T. rewrite a_seckey_tweak_mul; [reflexivity|fin..].
  - destruct T. rewrite a_pubkey_tweak_mul; [reflexivity|fin..].
  - rewrite a_pubkey_combine; [reflexivity|fin].
  - reflexivity.
  - destruct T. rewrite a_ecdh; [reflexivity|fin..].
  - rewrite a_rec_parse; [reflexivity|fin].
  - rewrite a_rec_serialize; [reflexivity|fin].
  - rewrite a_rec_convert; [reflexivity|fin].
  - destruct T as (? & ? & ?). rewrite (a_sign_recoverable fuel c c'); [reflexivity|fin..].
  - destruct T. rewrite a_recover; [reflexivity|fin..].
  - rewrite a_xonly_parse; [reflexivity|fin].
  - rewrite a_xonly_serialize; [reflexivity|fin].
  - destruct T. rewrite a_xonly_cmp; [reflexivity|fin..].
  - rewrite a_from_pubkey; [reflexivity|fin].
  - destruct T. rewrite a_xonly_tweak_add; [reflexivity|fin..].
  - destruct T. rewrite a_tweak_add_check; [reflexivity|fin..].
  - rewrite (a_keypair_create c c'); [reflexivity|fin..].
  - reflexivity.
  - reflexivity.
  - rewrite a_xonly_pub; [reflexivity|fin].
  - destruct T. rewrite a_keypair_tweak; [reflexivity|fin..].
  - rewrite (a_sign32 c c'); [reflexivity|fin..].
  - destruct T as [T1 T2]. rewrite (a_sign_custom c c'); [reflexivity|fin..|]. intros e f E1 E2 m key pk. apply (T2 e f E1 E2).
  - destruct T. rewrite a_schnorr_verify; [reflexivity|fin..].
  - rewrite a_ell_encode; [reflexivity|fin].
  - rewrite (a_ell_create fuel c c'); [reflexivity|fin..].
  - rewrite a_ell_decode; [reflexivity|fin].
  - destruct T as (? & ? & ?). rewrite a_ell_xdh; [reflexivity|fin..].
  - rewrite a_pubkey_agg; [reflexivity|fin].
  - rewrite a_pubkey_get; [reflexivity|fin].
  - destruct T. unfold musig_pubkey_ec_tweak_add_w32, musig_pubkey_ec_tweak_add. rewrite a_tweak_internal; [reflexivity|fin..].
  - destruct T. unfold musig_pubkey_xonly_tweak_add_w32, musig_pubkey_xonly_tweak_add. rewrite a_tweak_internal; [reflexivity|fin..].
  - rewrite a_pubnonce_parse; [reflexivity|fin].
  - rewrite a_pubnonce_serialize; [reflexivity|fin].
  - rewrite a_aggnonce_parse; [reflexivity|fin].
  - rewrite a_aggnonce_serialize; [reflexivity|fin].
  - rewrite a_psig_parse; [reflexivity|fin].
  - reflexivity.
  - destruct T as (? & ? & ?). rewrite (a_nonce_gen c c'); [reflexivity|fin..].
  - destruct T. rewrite (a_nonce_gen_counter c c'); [reflexivity|fin..].
  - rewrite a_nonce_agg; [reflexivity|fin].
  - destruct T. rewrite a_nonce_process; [reflexivity|fin..].
  - destruct T as (? & ? & ? & ?). rewrite a_partial_sign; [reflexivity|fin..].
  - destruct T as (? & ? & ? & ? & ?). rewrite a_partial_verify; [reflexivity|fin..].
  - destruct T. rewrite a_partial_agg; [reflexivity|fin..].
Qed.

(** * Histories *)

Definition rworld (w : world32) (w' : world) : Prop := rctx (v_static w) (w_static w') /\ forall k, ropt rctx (v_heap w k) (w_heap w' k).
Lemma r_init : rworld init_world32 init_world.
Proof. split; [exact r_static|intros k; exact I]. Qed.
Lemma r_deref w w' p : rworld w w' -> ropt rctx (deref32 w p) (deref w' p).
Proof. intros [H1 H2]. destruct p; [exact H1|apply H2]. Qed.
Lemma r_upd h h' k c c' : (forall j, ropt rctx (h j) (h' j)) -> ropt rctx c c' -> forall j, ropt rctx (upd32 h k c j) (CallsVocab.upd h' k c' j).
Proof. intros H Hc j. unfold upd32, CallsVocab.upd. destruct (Nat.eqb j k); [exact Hc|apply H]. Qed.
Lemma r_put w w' p c c' : rworld w w' -> rctx c c' -> rworld (put32 w p c) (put w' p c').
Proof.
  intros [H1 H2] Hc. destruct p; cbn [put32 put]; (split; cbn [v_static v_heap w_static w_heap]); try assumption. apply r_upd; [exact H2|exact Hc].
Qed.
Lemma r_place w w' k r r' : rworld w w' -> rres (ropt rctx) r r' -> rworld (fst (place32 w k r)) (fst (place64 w' k r')) /\ snd (place32 w k r) = snd (place64 w' k r').
Proof.
  intros [H1 H2] (E1 & E2 & R). unfold place32, place64. cbn [fst snd]. rewrite E1, E2. split; [|reflexivity].
  split; cbn [v_static v_heap w_static w_heap]; [exact H1|]. apply r_upd; assumption.
Qed.
Lemma r_change w w' p r r' : rworld w w' -> rres rctx r r' -> rworld (fst (change32 w p r)) (fst (change64 w' p r')) /\ snd (change32 w p r) = snd (change64 w' p r').
Proof. intros H (E1 & E2 & R). unfold change32, change64. cbn [fst snd]. rewrite E1, E2. split; [apply r_put; assumption|reflexivity]. Qed.
Lemma r_pclone c c' m m' : rctx c c' -> rres (ropt rctx) (context_preallocated_clone_w32 c (Some m)) (context_preallocated_clone c' (Some m')).
Proof.
  intros Hc. unfold context_preallocated_clone_w32, context_preallocated_clone. rewrite (r_proper _ _ Hc). destruct (negb _); (split; [reflexivity|]; split; [reflexivity|]); [exact I|exact Hc].
Qed.
Definition rstep (a : option (world32 * answer)) (b : option (world * answer)) : Prop :=
  match a, b with Some (w, x), Some (w', x') => rworld w w' /\ x = x' | None, None => True | _, _ => False end.
Lemma rstep_pair a b : rworld (fst a) (fst b) /\ snd a = snd b -> rstep (Some a) (Some b).
Proof. destruct a, b. exact (fun H => H). Qed.
Lemma r_step m m' w w' op : rworld w w' -> operation_typed op -> rstep (step32 m w op) (step64 m' w' op).
Proof.
  intros H T. destruct op as [k cm fl|p k|p [k|]|p sd|p fn da|p fn da|p|p k]; cbn [step32 step64]; cbv zeta;
    try (pose proof (r_deref w w' p H) as D; destruct (deref32 w p) as [c|], (deref w' p) as [c'|]; cbn [ropt] in D; [|contradiction|contradiction|exact I]).
  - pose proof (r_create cm m m' fl) as C. destruct H as [H1 H2]. split; [split; cbn [v_static v_heap w_static w_heap]; [exact H1|apply r_upd; assumption]|].
    destruct (context_create_w32 cm m fl), (context_create cm m' fl); cbn [ropt] in C; try contradiction; reflexivity.
  - apply rstep_pair, r_place; [exact H|]. unfold context_clone_w32, context_clone. rewrite (r_proper _ _ D). destruct (negb _); [split; [reflexivity|]; split; [reflexivity|exact I]|].
    apply r_pclone, D.
  - apply rstep_pair, r_place; [exact H|]. apply r_pclone, D.
  - split; [exact H|reflexivity].
  - apply rstep_pair, r_change; [exact H|]. apply r_randomize; [exact D|]. exact (opt_of _ _ T).
  - apply rstep_pair, r_change; [exact H|]. apply r_set_illegal, D.
  - apply rstep_pair, r_change; [exact H|]. apply r_set_error, D.
  - destruct (r_destroy c c' D) as (E1 & E2 & R). rewrite E1, E2. destruct (r_ill _ =? 0); (split; [|reflexivity]); [|exact H].
    destruct H as [H1 H2]. destruct p; (split; cbn [v_static v_heap w_static w_heap]); try assumption. apply r_upd; [exact H2|exact I].
  - cbn [operation_typed] in T. rewrite (same_answer c c' k D T). destruct (answer64 c' k); [|exact I]. split; [exact H|reflexivity].
Qed.
Lemma prop_w32 m m' ops : Forall operation_typed ops -> forall w w', rworld w w' -> observe32 m w ops = observe64 m' w' ops.
Proof.
  induction 1 as [|op ops T F IH]; intros w w' H; cbn [observe32 observe64]; [reflexivity|]. pose proof (r_step m m' w w' op H T) as R.
  destruct (step32 m w op) as [[v x]|], (step64 m' w' op) as [[v' x']|]; cbn [rstep] in R; try contradiction; [|reflexivity].
  destruct R as [R ->]. rewrite (IH _ _ R). reflexivity.
Qed.

(** * Signature objects *)

Lemma sc_bytes_lt a : sc_ok a -> bytes_n 32 (sc_bytes a) /\ le_val (sc_bytes a) < n.
Proof.
  intros K. pose proof (sc_ok_range a K) as R. assert (E : n <= 256 ^ Z.of_nat 32) by (vm_compute; congruence). rewrite (sc_bytes_ok a ltac:(apply K)).
  split; [split; [apply le_bytes_byte_list|apply le_bytes_length]|]. rewrite le_val_le_bytes. pose proof (Z.mod_le (sv a) (256 ^ Z.of_nat 32) ltac:(lia) ltac:(lia)). lia.
Qed.
Lemma sig_saved r s : sc_ok r -> sc_ok s -> sig_object (signature_save r s).
Proof.
  intros R K. destruct (sc_bytes_lt r R) as [[R1 R2] R3], (sc_bytes_lt s K) as [[K1 K2] K3]. unfold signature_save. split; [|split].
  - split; [apply byte_list_app; split; assumption|rewrite app_length; lia].
  - rewrite firstn_app, R2, Nat.sub_diag, firstn_O, app_nil_r, (firstn_all2 (n := 32)) by lia. exact R3.
  - rewrite skipn_app, R2, Nat.sub_diag, skipn_O, (skipn_all2 (n := 32)) by lia. exact K3.
Qed.
Lemma rec_saved r s v : sc_ok r -> sc_ok s -> recsig_object (recoverable_signature_save r s v).
Proof.
  intros R K. destruct (sc_bytes_lt r R) as [[R1 R2] R3], (sc_bytes_lt s K) as [[K1 K2] K3]. unfold recoverable_signature_save. split; [|split].
  - split; [apply byte_list_app; split; [assumption|]; apply byte_list_app; split; [assumption|]|rewrite !app_length; cbn [length]; lia].
    apply byte_list_cons. split; [|constructor]. unfold w8. apply Z.mod_pos_bound. reflexivity.
  - rewrite firstn_app, R2, Nat.sub_diag, firstn_O, app_nil_r, (firstn_all2 (n := 32)) by lia. exact R3.
  - rewrite skipn_app, R2, Nat.sub_diag, skipn_O, (skipn_all2 (n := 32)) by lia. cbn [app]. rewrite firstn_app, K2, Nat.sub_diag, firstn_O, app_nil_r, (firstn_all2 (n := 32)) by lia. exact K3.
Qed.
Lemma sig_zero : sig_object (zeros 64).
Proof. split; [split; [apply byte_list_zeros|reflexivity]|]. split; reflexivity. Qed.
Lemma rec_zero : recsig_object (zeros 65).
Proof. split; [split; [apply byte_list_zeros|reflexivity]|]. split; reflexivity. Qed.
Lemma some_inj {A} (x y : A) : Some x = Some y -> x = y. Proof. intros E. injection E. exact (fun H => H). Qed.
Lemma buf_inj (x y : list Z) : Buf (Some x) = Buf (Some y) -> x = y. Proof. intros E. injection E. exact (fun H => H). Qed.
Lemma writes_sig c c' k a : rctx c c' -> call_typed k -> writes_signature k -> answer64 c' k = Some a -> ans_illegal a = 0 -> forall b, In (Buf (Some b)) (ans_out a) -> sig_object b.
Proof.
  intros Hc T W E I0 b. destruct k; try contradiction W; cbn [answer64 call_typed] in E, T.
  - unfold ecdsa_signature_parse_der in E. destruct sig as [sg|]; [|apply some_inj in E; subst a; discriminate I0]. destruct input as [l|]; [|apply some_inj in E; subst a; discriminate I0].
    pose proof (r_sig_parse l T) as H. destruct (ecdsa_sig_parse_w32 l) as [| |[r s]], (ecdsa_sig_parse l) as [| |[r' s']]; try contradiction H; cbn [opt_answer] in E; try discriminate E;
      apply some_inj in E; subst a; intros [B|[]]; cbn in B; apply buf_inj in B; subst b; [exact sig_zero|]. apply sig_saved; apply H.
  - unfold ecdsa_signature_parse_compact in E. apply some_inj in E; subst a. destruct sig as [sg|]; [|discriminate I0]. destruct input as [l|]; [|discriminate I0].
    destruct (r_set _ (bytes_first 32 32 l T)) as [S1 _], (r_set _ (bytes_skip 32 32 l T)) as [S2 _]. clear I0. revert S1 S2.
    destruct (sc_set_b32 (firstn 32 l)) as [x o1], (sc_set_b32 (skipn 32 l)) as [y o2]. cbn [fst]. intros S1 S2.
    match goal with |- context [if ?x then _ else _] => destruct x end; cbn [of_buf ans_out r_out]; intros [B|[]]; apply buf_inj in B; subst b; first [exact sig_zero | apply sig_saved; [apply S1|apply S2]].
  - unfold ecdsa_signature_normalize in E. apply some_inj in E; subst a. destruct sigin as [sg|]; [|discriminate I0]. destruct (r_sig_load sg T) as [S1 S2]. clear I0. revert S1 S2.
    destruct (signature_load sg) as [x y]. cbn [fst snd]. intros S1 S2. destruct sigout; cbn [of_buf ans_out r_out]; intros [B|[]]; [|discriminate B]. apply buf_inj in B; subst b.
    apply sig_saved; [apply S1|]. destruct (sc_is_high y); [apply (same_negate _ _ S2)|apply S2].
  - unfold ecdsa_sign in E. destruct (negb (g_built _)); [apply some_inj in E; subst a; discriminate I0|]. destruct msg as [msg|]; [|apply some_inj in E; subst a; discriminate I0].
    destruct sig as [sg|]; [|apply some_inj in E; subst a; discriminate I0]. destruct key as [key|]; [|apply some_inj in E; subst a; discriminate I0]. destruct T as (T1 & T2 & T3).
    pose proof (r_sign_inner fuel _ _ msg key nf nd (proj1 Hc) T1 T2 (T3 _ _ eq_refl eq_refl)) as R.
    destruct (ecdsa_sign_inner_w32 _ _ _ _ _ _) as [[[[ret r] s] recid]|], (ecdsa_sign_inner _ _ _ _ _ _) as [[[[ret' r'] s'] recid']|]; try contradiction R; [|discriminate E].
    destruct R as (R1 & R2 & R3 & R4). cbn [fst snd] in R2, R3. apply some_inj in E; subst a. intros [B|[]]. apply buf_inj in B; subst b. apply sig_saved; [apply R2|apply R3].
  - unfold recoverable_signature_convert in E. apply some_inj in E; subst a. destruct sig as [sg|]; [|discriminate I0]. destruct sigin as [l|]; [|discriminate I0].
    destruct (r_rec_load l T) as (S1 & S2 & _). clear I0. revert S1 S2. destruct (recoverable_signature_load l) as [[x y] z]. cbn [fst snd]. intros S1 S2.
    cbn [of_buf ans_out r_out]. intros [B|[]]. apply buf_inj in B; subst b. apply sig_saved; [apply S1|apply S2].
Qed.
Lemma writes_rec c c' k a : rctx c c' -> call_typed k -> writes_recsig k -> answer64 c' k = Some a -> ans_illegal a = 0 -> forall b, In (Buf (Some b)) (ans_out a) -> recsig_object b.
Proof.
  intros Hc T W E I0 b. destruct k; try contradiction W; cbn [answer64 call_typed] in E, T.
  - unfold recoverable_signature_parse_compact in E. apply some_inj in E; subst a. destruct sig as [sg|]; [|discriminate I0]. destruct input as [l|]; [|discriminate I0].
    destruct (negb (_ && _)); [discriminate I0|].
    destruct (r_set _ (bytes_first 32 32 l T)) as [S1 _], (r_set _ (bytes_first 32 0 _ (bytes_skip 32 32 l T))) as [S2 _]. clear I0. revert S1 S2.
    destruct (sc_set_b32 (firstn 32 l)) as [x o1], (sc_set_b32 (firstn 32 (skipn 32 l))) as [y o2]. cbn [fst]. intros S1 S2. cbv zeta.
    match goal with |- context [if ?x then _ else _] => destruct x end; cbn [of_buf ans_out r_out]; intros [B|[]]; apply buf_inj in B; subst b; first [exact rec_zero | apply rec_saved; [apply S1|apply S2]].
  - unfold ecdsa_sign_recoverable in E. destruct (negb (g_built _)); [apply some_inj in E; subst a; discriminate I0|]. destruct msg as [msg|]; [|apply some_inj in E; subst a; discriminate I0].
    destruct sig as [sg|]; [|apply some_inj in E; subst a; discriminate I0]. destruct key as [key|]; [|apply some_inj in E; subst a; discriminate I0]. destruct T as (T1 & T2 & T3).
    pose proof (r_sign_inner fuel _ _ msg key nf nd (proj1 Hc) T1 T2 (T3 _ _ eq_refl eq_refl)) as R.
    destruct (ecdsa_sign_inner_w32 _ _ _ _ _ _) as [[[[ret r] s] recid]|], (ecdsa_sign_inner _ _ _ _ _ _) as [[[[ret' r'] s'] recid']|]; try contradiction R; [|discriminate E].
    destruct R as (R1 & R2 & R3 & R4). cbn [fst snd] in R2, R3. apply some_inj in E; subst a. intros [B|[]]. apply buf_inj in B; subst b. apply rec_saved; [apply R2|apply R3].
Qed.
Lemma observe_last mem p k a : forall ops w w' l, rworld w w' -> Forall operation_typed ops -> observe64 mem w' (ops ++ [O_call p k]) = Some (l ++ [a]) ->
  exists c c', rctx c c' /\ answer64 c' k = Some a.
Proof.
  induction ops as [|op ops IH]; intros w w' l H F E; cbn [app observe64] in E.
  - cbn [step64] in E. pose proof (r_deref w w' p H) as D. destruct (deref32 w p) as [c|], (deref w' p) as [c'|]; cbn [ropt] in D; try contradiction; [|discriminate E].
    exists c, c'. split; [exact D|]. destruct (answer64 c' k) as [a'|]; [|discriminate E]. injection E as E. destruct l as [|x l]; [injection E as ->; reflexivity|]. destruct l; discriminate E.
  - pose proof (r_step context_static_w32 mem w w' op H (Forall_inv F)) as R. destruct (step32 context_static_w32 w op) as [[v x]|], (step64 mem w' op) as [[v' x']|]; cbn [rstep] in R; try contradiction; [|discriminate E].
    destruct (observe64 mem v' (ops ++ [O_call p k])) as [l'|] eqn:E'; [|discriminate E]. injection E as E. destruct l as [|y l].
    + destruct l' as [|z l']; [|discriminate E]. exfalso. revert E'. clear. revert v'. induction ops as [|o ops IH]; intros v' E; cbn [app observe64] in E.
      * destruct (step64 mem v' (O_call p k)) as [[? ?]|]; discriminate E.
      * destruct (step64 mem v' o) as [[v ?]|]; [|discriminate E]. destruct (observe64 mem v _); discriminate E.
    + injection E as _ ->. apply (IH v v' l); [exact (proj1 R)|exact (Forall_inv_tail F)|exact E'].
Qed.
Lemma prop_sig_objects mem ops p k l a : Forall operation_typed ops -> call_typed k -> observe64 mem init_world (ops ++ [O_call p k]) = Some (l ++ [a]) -> ans_illegal a = 0 ->
  forall b, In (Buf (Some b)) (ans_out a) -> (writes_signature k -> sig_object b) /\ (writes_recsig k -> recsig_object b).
Proof.
  intros F T E I0 b B. destruct (observe_last mem p k a ops _ _ l r_init F E) as (c & c' & R & A). split; intros W.
  - exact (writes_sig c c' k a R T W A I0 b B).
  - exact (writes_rec c c' k a R T W A I0 b B).
Qed.

(** * Examples *)

Definition w_history : list operation :=
  [O_create 0 false 1; O_call (Heap 0) (W_ec_seckey_verify (Some (w_key 5))); O_call (Heap 0) (W_ec_pubkey_create (Some []) (Some (w_key 5)));
   O_call Static (W_ec_pubkey_create None (Some (w_key 5))); O_destroy (Heap 0)].
Lemma w_history_typed : Forall operation_typed w_history.
Proof.
  assert (B : bytes_n 32 (w_key 5)) by (destruct (w_key_ok 5 (w_small 5 w_5)) as (A & _); exact A).
  repeat (constructor; [first [exact I | exact B]|]). constructor.
Qed.
Lemma w_history_seen mem : exists pk, pubkey_holds pk (pmul 5 G) /\
  observe64 mem init_world w_history = Some [mkanswer 1 0 []; mkanswer 1 0 []; mkanswer 1 0 [Buf (Some pk)]; mkanswer 0 1 [Buf None]; mkanswer 0 0 []].
Proof.
  destruct (w_create 5 [] (w_small 5 w_5)) as (pk & E & P). exists pk. split; [exact P|]. unfold w_history. cbn [observe64].
  assert (C : step64 mem init_world (O_create 0 false 1) = Some (mkworld context_static (CallsVocab.upd (fun _ => None) 0 (Some w_ctx)), mkanswer 1 0 [])).
  { destruct fresh_context as [c F]. assert (F' : context_create false mem 1 = Some c) by (rewrite <- F; reflexivity).
    unfold w_ctx. cbn [step64]. cbv zeta. rewrite F, F'. reflexivity. }
  rewrite C. clear C. set (w := mkworld _ _). assert (D : deref w (Heap 0) = Some w_ctx) by reflexivity.
  assert (S1 : step64 mem w (O_call (Heap 0) (W_ec_seckey_verify (Some (w_key 5)))) = Some (w, mkanswer 1 0 [])).
  { cbn [step64]. rewrite D. cbn [answer64]. destruct (w_key_ok 5 (w_small 5 w_5)) as (A & V & _). destruct (prop_seckey_verify _ A) as [[_ V1]|[V1 _]]; [rewrite V1; reflexivity|].
    destruct V1. rewrite V. exact (w_small 5 w_5). }
  assert (S2 : step64 mem w (O_call (Heap 0) (W_ec_pubkey_create (Some []) (Some (w_key 5)))) = Some (w, mkanswer 1 0 [Buf (Some pk)])).
  { cbn [step64]. rewrite D. cbn [answer64]. rewrite E. reflexivity. }
  rewrite S1, S2.
  assert (S3 : step64 mem w (O_call Static (W_ec_pubkey_create None (Some (w_key 5)))) = Some (w, mkanswer 0 1 [Buf None])) by reflexivity.
  rewrite S3. assert (S4 : exists w', step64 mem w (O_destroy (Heap 0)) = Some (w', mkanswer 0 0 [])).
  { cbn [step64]. rewrite D. cbv zeta. unfold context_preallocated_destroy. assert (B : context_is_proper w_ctx = true).
    { destruct fresh_context as [c F]. unfold w_ctx. rewrite F. unfold context_create, context_preallocated_create in F. injection F as <-. reflexivity. }
    rewrite B. change (negb true) with false. cbv iota. eexists. reflexivity. }
  destruct S4 as [w' S4]. rewrite S4. reflexivity.
Qed.
Definition w_compact : list Z := zeros 31 ++ [7] ++ zeros 31 ++ [9].
Lemma w_compact_seen mem : call_typed (W_ecdsa_signature_parse_compact (Some []) (Some w_compact)) /\
  observe64 mem init_world [O_call Static (W_ecdsa_signature_parse_compact (Some []) (Some w_compact))] = Some [mkanswer 1 0 [Buf (Some ([7] ++ zeros 31 ++ [9] ++ zeros 31))]].
Proof.
  split; [|reflexivity]. split; [|reflexivity]. unfold w_compact. rewrite !byte_list_app. repeat split; try apply byte_list_zeros; (apply byte_list_cons; split; [lia|constructor]).
Qed.
