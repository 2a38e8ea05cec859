(** The MuSig module and the key sort of the 32-bit build: the same results as in the 64-bit build. *)
Require Import ZArith List Bool Lia.
From Verif Require Import Word Word32 Bytes Spec SpecApi HashModel FieldModel ScalarModel Field32Model Field32Bytes Scalar32Model Scalar32Ops FieldBytes ScalarProof ScalarProof2 GenTable GroupModel EcmultModel GenModel EcdsaModel ApiModel ExtrakeysModel SchnorrModel RecoveryModel EcdhModel EllswiftModel HsortModel MusigModel ApiVocab SpecHash HashProof KeyProps W32_Base W32_Group W32_Ecmult W32_Gen W32_Ecdsa W32_Api W32_Extrakeys W32_Schnorr W32_Recovery W32_Ecdh W32_Ellswift W32_Hsort W32_Musig W32_Tight W32_SimField W32_SimScalar W32_SimGroup W32_SimEcmult W32_SimGen W32_SimEcdsa W32_SimApi W32_SimExtra.
Import ListNotations.
Local Open Scope Z_scope.

(** * Sorting: two comparisons that agree on the elements of the array give the same run *)

Section Ext.
Context {A : Type} (P : A -> Prop) (c1 c2 : A -> A -> Z * Z) (Hc : forall x y, P x -> P y -> c1 x y = c2 x y).
Lemma nth_error_P l i x : Forall P l -> nth_error l i = Some x -> P x.
Proof. intros F E. rewrite Forall_forall in F. apply F. eapply nth_error_In, E. Qed.
Lemma cmp_at_ext l i j : Forall P l -> cmp_at c1 l i j = cmp_at c2 l i j.
Proof.
  intros F. unfold cmp_at. destruct (nth_error l i) as [x|] eqn:E1; [|reflexivity]. destruct (nth_error l j) as [y|] eqn:E2; [|reflexivity].
  f_equal. apply Hc; [eapply nth_error_P, E1|eapply nth_error_P, E2]; exact F.
Qed.
Lemma upd_P l : Forall P l -> forall i x, P x -> Forall P (upd i x l).
Proof. induction 1 as [|a l Ha F IH]; intros [|i] x Hx; cbn [upd]; constructor; auto. Qed.
Lemma swap_P l i j l' : Forall P l -> heap_swap l i j = Some l' -> Forall P l'.
Proof.
  intros F. unfold heap_swap. destruct (nth_error l i) as [x|] eqn:E1; [|discriminate]. destruct (nth_error l j) as [y|] eqn:E2; [|discriminate].
  intros E. injection E as <-. apply upd_P; [apply upd_P; [exact F|eapply nth_error_P, E2; exact F]|eapply nth_error_P, E1; exact F].
Qed.
Lemma heap_down_ext fuel : forall l i hs ill, Forall P l ->
  heap_down fuel c1 l i hs ill = heap_down fuel c2 l i hs ill /\ forall l' ill', heap_down fuel c2 l i hs ill = Some (l', ill') -> Forall P l'.
Proof.
  induction fuel as [|fuel IH]; intros l i hs ill F; cbn [heap_down]; [split; [reflexivity|discriminate]|]. cbv zeta.
  assert (K : forall a b ill0, let go (c : A -> A -> Z * Z) := match heap_swap l a b with None => None | Some arr => heap_down fuel c arr b hs ill0 end in
    go c1 = go c2 /\ forall l' ill', go c2 = Some (l', ill') -> Forall P l').
  { intros a b ill0. cbv beta zeta. destruct (heap_swap l a b) as [l1|] eqn:E; [|split; [reflexivity|discriminate]]. apply IH. eapply swap_P, E; exact F. }
  assert (D : forall ill0, Some (l, ill0) = Some (l, ill0) /\ forall l' (ill' : Z), Some (l, ill0) = Some (l', ill') -> Forall P l') by (intros ill0; split; [reflexivity|intros l' ill' E; injection E as <- _; exact F]).
  destruct (Nat.ltb i _); [|apply D]. rewrite !(cmp_at_ext l _ _ F).
  assert (T : forall ill0,
    let try1 (c : A -> A -> Z * Z) := match cmp_at c2 l (heap_child1 i) i with None => None | Some (v, k) => if 0 <? v then match heap_swap l i (heap_child1 i) with None => None | Some arr => heap_down fuel c arr (heap_child1 i) hs (ill0 + k) end else Some (l, ill0 + k) end in
    try1 c1 = try1 c2 /\ forall l' ill', try1 c2 = Some (l', ill') -> Forall P l').
  { intros ill0. cbv beta zeta. destruct (cmp_at c2 l (heap_child1 i) i) as [[v k]|]; [|split; [reflexivity|discriminate]]. destruct (0 <? v); [apply K|apply D]. }
  destruct (Nat.ltb _ hs); [|apply T]. destruct (cmp_at c2 l (heap_child2 i) (heap_child1 i)) as [[v k]|]; [|split; [reflexivity|discriminate]].
  destruct (0 <=? v); [|apply T]. destruct (cmp_at c2 l (heap_child2 i) i) as [[v' k']|]; [|split; [reflexivity|discriminate]].
  destruct (0 <? v'); [apply K|apply D].
Qed.
Lemma hsort_build_ext count : forall i l ill, Forall P l ->
  hsort_build c1 l i count ill = hsort_build c2 l i count ill /\ forall l' ill', hsort_build c2 l i count ill = Some (l', ill') -> Forall P l'.
Proof.
  induction i as [|i IH]; intros l ill F; cbn [hsort_build]; [split; [reflexivity|intros l' ill' E; injection E as <- _; exact F]|].
  destruct (heap_down_ext (S count) l i count ill F) as [E1 E2]. rewrite E1. destruct (heap_down _ c2 l i count ill) as [[l1 ill1]|]; [|split; [reflexivity|discriminate]].
  apply IH. eapply E2; reflexivity.
Qed.
Lemma hsort_pop_ext : forall i l ill, Forall P l -> hsort_pop c1 l i ill = hsort_pop c2 l i ill.
Proof.
  induction i as [|i IH]; intros l ill F; cbn [hsort_pop]; [reflexivity|]. destruct (Nat.ltb 1 (S i)); [|reflexivity].
  destruct (heap_swap l 0 i) as [l1|] eqn:E; [|reflexivity]. pose proof (swap_P _ _ _ _ F E) as F1.
  destruct (heap_down_ext (S i) l1 0 i ill F1) as [E1 E2]. rewrite E1. destruct (heap_down _ c2 l1 0 i ill) as [[l2 ill2]|]; [|reflexivity].
  apply IH. eapply E2; reflexivity.
Qed.
Lemma hsort_ext l count : Forall P l -> hsort c1 l count = hsort c2 l count.
Proof.
  intros F. unfold hsort. destruct (hsort_build_ext count (Nat.div count 2) l 0 F) as [E1 E2]. rewrite E1.
  destruct (hsort_build c2 l _ count 0) as [[l1 ill1]|]; [|reflexivity]. apply hsort_pop_ext. eapply E2; reflexivity.
Qed.
End Ext.
Lemma a_pubkey_sort pks k : (forall l, pks = Some l -> Forall (opt_bytes 64) l) -> ec_pubkey_sort_w32 pks k = ec_pubkey_sort pks k.
Proof.
  intros B. unfold ec_pubkey_sort_w32, ec_pubkey_sort. destruct pks as [pks|]; [|reflexivity].
  rewrite (hsort_ext (opt_bytes 64) ec_pubkey_sort_cmp_w32 ec_pubkey_sort_cmp); [reflexivity| |exact (B _ eq_refl)].
  intros x y X Y. unfold ec_pubkey_sort_cmp_w32, ec_pubkey_sort_cmp. rewrite (a_pubkey_cmp x y X Y). reflexivity.
Qed.

(** * Batch conversion to affine *)

Lemma r_zprods l l' : Forall2 RJ l l' -> forall a b, RF a b -> Forall2 RF (zprods_w32 a l) (zprods b l').
Proof.
  induction 1 as [|x y l l' X F IH]; intros a b H; cbn [zprods_w32 zprods]; constructor; try exact H; [constructor|].
  apply IH. destruct X as (_ & _ & Z & _). apply (rf_mul 1 1); [exact H|exact Z|lia|lia].
Qed.
Lemma r_zinvs ps ps' : Forall2 RF ps ps' -> forall zs zs' u u', Forall2 RF zs zs' -> RF u u' -> Forall2 RF (zinvs_back_w32 ps zs u) (zinvs_back ps' zs' u').
Proof.
  induction 1 as [|x y ps ps' X F IH]; intros zs zs' u u' Hz Hu; cbn [zinvs_back_w32 zinvs_back]; [constructor; [exact Hu|constructor]|].
  destruct Hz as [|z z' zs zs' Z Hz]; [constructor; [exact Hu|constructor]|]. constructor; [apply (rf_mul 1 1); [exact X|exact Hu|lia|lia]|].
  apply IH; [exact Hz|apply (rf_mul 1 1); [exact Hu|exact Z|lia|lia]].
Qed.
Lemma r_jzs l l' : Forall2 RJ l l' -> Forall2 RF (map jz_w32 l) (map jz l').
Proof. intros H. apply (Forall2_map' RJ); [|exact H]. intros a b (_ & _ & Z & _). exact Z. Qed.
Lemma r_zinv_map l l' : Forall2 RJ l l' -> forall z z', Forall2 RF z z' ->
  Forall2 (rge 1 1) (map (fun az => ge_set_gej_zinv_w32 (fst az) (snd az)) (combine l z)) (map (fun az => ge_set_gej_zinv (fst az) (snd az)) (combine l' z')).
Proof.
  induction 1 as [|x y l l' X F IH]; intros z z' Hz; cbn [combine map]; [constructor|]. destruct Hz as [|a b z z' H Hz]; cbn [combine map]; [constructor|].
  constructor; [|apply IH; exact Hz]. cbn [fst snd]. apply (rg_set_gej_zinv 1 1); [exact X|exact H|lia].
Qed.
Lemma r_set_all l l' : Forall2 RJ l l' -> Forall2 (rge 1 1) (ge_set_all_gej_w32 l) (ge_set_all_gej l').
Proof.
  intros H. unfold ge_set_all_gej_w32, ge_set_all_gej. destruct H as [|a b l l' X F]; [constructor|]. cbv zeta.
  assert (Z : RF (jz_w32 a) (jz b)) by (destruct X as (_ & _ & Z & _); exact Z).
  pose proof (Forall2_rev' _ _ _ (r_zprods l l' F _ _ Z)) as Q. destruct Q as [|t t' bl bl' T Q]; [constructor|].
  apply r_zinv_map; [constructor; assumption|]. apply Forall2_rev', r_zinvs; [exact Q|apply Forall2_rev', r_jzs, F|]. apply rn_rf, (rn_inv 1); [exact T|lia].
Qed.
Lemma r_filter l l' : Forall2 RJ l l' -> Forall2 RJ (filter (fun a => negb (jinf_w32 a)) l) (filter (fun a => negb (jinf a)) l').
Proof.
  induction 1 as [|x y l l' X F IH]; cbn [filter]; [constructor|]. rewrite (r_jinf _ _ _ _ _ X). destruct (negb (jinf y)); [constructor; assumption|exact IH].
Qed.
Lemma r_merge l l' : Forall2 RJ l l' -> forall r r', Forall2 (rge 1 1) r r' -> Forall2 (rge 1 1) (merge_inf_w32 l r) (merge_inf l' r').
Proof.
  induction 1 as [|x y l l' X F IH]; intros r r' H; cbn [merge_inf_w32 merge_inf]; [constructor|]. rewrite (r_jinf _ _ _ _ _ X). destruct (jinf y).
  - constructor; [exact rg_infinity|apply IH, H].
  - destruct H as [|g g' r r' G H]; (constructor; [first [exact rg_infinity|exact G]|apply IH; first [exact H|constructor]]).
Qed.
Lemma r_set_all_var l l' : Forall2 RJ l l' -> Forall2 (rge 1 1) (ge_set_all_gej_var_w32 l) (ge_set_all_gej_var l').
Proof.
  intros H. unfold ge_set_all_gej_var_w32, ge_set_all_gej_var. apply r_merge; [exact H|]. pose proof (r_filter l l' H) as X.
  destruct X as [|a b m m' X F]; [constructor|]. cbv zeta. assert (Z : RF (jz_w32 a) (jz b)) by (destruct X as (_ & _ & Z & _); exact Z).
  pose proof (Forall2_rev' _ _ _ (r_zprods m m' F _ _ Z)) as Q. destruct Q as [|t t' bl bl' T Q]; [constructor|].
  apply r_zinv_map; [constructor; assumption|]. apply Forall2_rev', r_zinvs; [exact Q|apply Forall2_rev', r_jzs, F|]. apply rn_rf, (rn_inv_var 1); [exact T|lia].
Qed.

(** * Key aggregation *)

Lemma bytes_take N off len l : bytes_n N l -> (off + len <= N)%nat -> bytes_n len (take off len l).
Proof. intros [B L] H. unfold take. split; [apply byte_list_firstn, byte_list_skipn, B|rewrite firstn_length, skipn_length; lia]. Qed.
Ltac tk H := apply (bytes_take _ _ _ _ H); lia.
Lemma rg11 a b : rge 1 1 a b -> RG a b. Proof. intros H. apply (rg44 1 1); [exact H|lia|lia]. Qed.
Lemma rg12 a b : rge 1 2 a b -> RG a b. Proof. intros H. apply (rg44 1 2); [exact H|lia|lia]. Qed.
Lemma rgtG a b : rgt a b -> RG a b. Proof. intros H. apply rg11, rgt_rge, H. Qed.
Lemma rj_of_g a b : rge 1 1 a b -> RJ (gej_set_ge_w32 a) (gej_set_ge b).
Proof. intros H. apply (rj_weaken 1 1 1); [apply rj_set_ge, H|lia..]. Qed.

Lemma r_multi_loop cb cb' k : (forall i, (i < k)%nat -> ropt (fun a b => same (fst a) (fst b) /\ rge 1 1 (snd a) (snd b)) (cb i) (cb' i)) ->
  forall todo idx r r', (idx + todo <= k)%nat -> RJ r r' -> ropt RJ (multi_simple_loop_w32 cb idx todo r) (multi_simple_loop cb' idx todo r').
Proof.
  intros H. induction todo as [|todo IH]; intros idx r r' K J; cbn [multi_simple_loop_w32 multi_simple_loop]; [exact J|].
  specialize (H idx ltac:(lia)) as C. destruct (cb idx) as [[s g]|], (cb' idx) as [[s' g']|]; cbn in C; try contradiction; [|exact I]. destruct C as [C1 C2].
  apply IH; [lia|]. apply rj_add_var; [exact J|]. apply r_ecmult; [apply rj_of_g, C2|exact C1|exact I].
Qed.
Lemma r_multi cb cb' k : (forall i, (i < k)%nat -> ropt (fun a b => same (fst a) (fst b) /\ rge 1 1 (snd a) (snd b)) (cb i) (cb' i)) ->
  ropt RJ (ecmult_multi_var_noscratch_w32 None cb k) (ecmult_multi_var_noscratch None cb' k).
Proof.
  intros H. unfold ecmult_multi_var_noscratch_w32, ecmult_multi_var_noscratch. destruct k as [|k]; [exact rj_inf4|].
  unfold ecmult_multi_simple_var_w32, ecmult_multi_simple_var. apply (r_multi_loop cb cb' (S k) H); [lia|].
  apply r_ecmult; [exact rj_inf4|exact same_zero|exact I].
Qed.

Definition rci (a : keyagg_cache_internal_w32) (b : keyagg_cache_internal) : Prop :=
  rgt (ci_pk_w32 a) (ci_pk b) /\ rge 1 1 (ci_second_pk_w32 a) (ci_second_pk b) /\ ci_pks_hash_w32 a = ci_pks_hash b /\
  same (ci_tweak_w32 a) (ci_tweak b) /\ ci_parity_acc_w32 a = ci_parity_acc b.
Lemma r_cache_save g g' s s' h t t' p : RG g g' -> rge 1 1 s s' -> same t t' -> keyagg_cache_save_w32 (mkcache_w32 g s h t p) = keyagg_cache_save (mkcache g' s' h t' p).
Proof.
  intros G R T. unfold keyagg_cache_save_w32, keyagg_cache_save.
  cbn [ci_pk_w32 ci_second_pk_w32 ci_pks_hash_w32 ci_tweak_w32 ci_parity_acc_w32 ci_pk ci_second_pk ci_pks_hash ci_tweak ci_parity_acc].
  rewrite (r_to_bytes _ _ G), (r_to_bytes_ext _ _ (rg11 _ _ R)), (same_get_b32 _ _ T). reflexivity.
Qed.
Lemma r_cache_load c : bytes_n 197 c -> ropt rci (keyagg_cache_load_w32 c) (keyagg_cache_load c).
Proof.
  intros H. unfold keyagg_cache_load_w32, keyagg_cache_load. destruct (_ =? 0); [|exact I]. cbn [ropt].
  assert (H1 : bytes_n 64 (take 4 64 c)) by tk H. assert (H2 : bytes_n 64 (take 68 64 c)) by tk H. assert (H3 : bytes_n 32 (take 165 32 c)) by tk H.
  split; [exact (rgt_from_bytes _ (proj1 H1) (proj2 H1))|]. split; [exact (rg_from_bytes_ext _ (proj1 H2) (proj2 H2))|].
  split; [reflexivity|]. split; [exact (proj1 (same_set_b32 _ (proj1 H3) (proj2 H3)))|reflexivity].
Qed.
Ltac cload c H :=
  let L := fresh "CI" in let x := fresh "ci" in let y := fresh "ci'" in
  pose proof (r_cache_load c H) as L; destruct (keyagg_cache_load_w32 c) as [x|], (keyagg_cache_load c) as [y|]; cbn [ropt] in L; [|contradiction|contradiction|].

Lemma a_pks_hash_loop pks : Forall (bytes_n 64) pks -> forall sha, pks_hash_loop_w32 sha pks = pks_hash_loop sha pks.
Proof.
  induction 1 as [|pk pks B F IH]; intros sha; cbn [pks_hash_loop_w32 pks_hash_loop]; [reflexivity|].
  rewrite a_pubkey_serialize by (intros l E; injection E as <-; exact B). destruct (ec_pubkey_serialize _ _ _ _) as [r|]; [|reflexivity].
  destruct (r_ret r =? 0); [reflexivity|]. apply IH.
Qed.
Lemma a_pks_hash pks : Forall (bytes_n 64) pks -> musig_compute_pks_hash_w32 pks = musig_compute_pks_hash pks.
Proof. intros F. unfold musig_compute_pks_hash_w32, musig_compute_pks_hash. rewrite (a_pks_hash_loop pks F). reflexivity. Qed.
Lemma r_coef h g g' s s' : rge 1 1 g g' -> rge 1 1 s s' -> same (musig_keyaggcoef_internal_w32 h g s) (musig_keyaggcoef_internal h g' s').
Proof.
  intros G R. unfold musig_keyaggcoef_internal_w32, musig_keyaggcoef_internal. unfold ge_is_infinity_w32, ge_is_infinity. rewrite (r_ginf _ _ _ _ R), (r_ge_eq_var _ _ _ _ (rg11 _ _ G) (rg11 _ _ R)).
  destruct (negb (ginf s') && ge_eq_var g' s'); [apply same_set_int; lia|]. cbv zeta. rewrite (r_pubkey_serialize _ _ true (rg11 _ _ G)).
  apply r_set, finalize_bytes. do 2 apply write_hash8. reflexivity.
Qed.
Lemma r_second pk0 rest : Forall (bytes_n 64) rest -> ropt (rge 1 1) (second_pk_loop_w32 pk0 rest) (second_pk_loop pk0 rest).
Proof.
  induction 1 as [|pk rest B F IH]; cbn [second_pk_loop_w32 second_pk_loop]; [exact rg_infinity|]. destruct (negb (_ =? 0)); [|exact IH].
  tload pk B. destruct b; cbn [negb]; [exact (rgt_rge _ _ L0)|exact I].
Qed.
Lemma nth_bytes pks i : Forall (bytes_n 64) pks -> (i < length pks)%nat -> bytes_n 64 (nth i pks []).
Proof. intros F H. rewrite Forall_forall in F. apply F, nth_In, H. Qed.
Lemma r_even_y' a b : rge 1 1 a b -> rn (gy_w32 a) (gy b) -> rge 1 2 (fst (extrakeys_ge_even_y_w32 a)) (fst (extrakeys_ge_even_y b)).
Proof.
  intros H Y. pose proof H as (X & Y1 & E). unfold extrakeys_ge_even_y_w32, extrakeys_ge_even_y. rewrite (rn_is_odd _ _ Y). destruct (fe_is_odd (gy b)); cbn [fst snd].
  - apply rge_intro; [exact X| |exact E]. rgo.
  - apply (rge_weaken 1 1); [exact H|lia|lia].
Qed.
Lemma a_pubkey_agg apk cache pks : (forall l, pks = Some l -> Forall (bytes_n 64) l) -> musig_pubkey_agg_w32 apk cache pks = musig_pubkey_agg apk cache pks.
Proof.
  intros B. unfold musig_pubkey_agg_w32, musig_pubkey_agg. cbv zeta. destruct pks as [[|pk0 rest]|]; try reflexivity. specialize (B _ eq_refl).
  pose proof (r_second pk0 rest (Forall_inv_tail B)) as R. destruct (second_pk_loop_w32 pk0 rest) as [s|], (second_pk_loop pk0 rest) as [s'|]; cbn [ropt] in R; try contradiction; [|reflexivity].
  rewrite (a_pks_hash _ B). destruct (musig_compute_pks_hash (pk0 :: rest)) as [h|]; [|reflexivity].
  assert (M : ropt RJ (ecmult_multi_var_noscratch_w32 None (musig_pubkey_agg_callback_w32 h (pk0 :: rest) s) (length (pk0 :: rest)))
                      (ecmult_multi_var_noscratch None (musig_pubkey_agg_callback h (pk0 :: rest) s') (length (pk0 :: rest)))).
  { apply r_multi. intros i Hi. unfold musig_pubkey_agg_callback_w32, musig_pubkey_agg_callback. cbv zeta. destruct (t_load _ (nth_bytes _ _ B Hi)) as [_ T].
    cbn [ropt fst snd]. split; [apply r_coef; [exact (rgt_rge _ _ T)|exact R]|exact (rgt_rge _ _ T)]. }
  destruct (ecmult_multi_var_noscratch_w32 _ _ _) as [j|], (ecmult_multi_var_noscratch _ _ _) as [j'|]; cbn [ropt] in M; try contradiction; [|reflexivity].
  pose proof (rg_set_gej _ _ M) as G. set (g := ge_set_gej_w32 j) in *. set (g' := ge_set_gej j') in *. clearbody g g'. destruct G as (GX & GY & GI).
  pose proof (rn_normalize_var 1 _ _ GY ltac:(lia)) as N.
  assert (G1 : rge 1 1 (mkge_w32 (gx_w32 g) (f26_normalize_var (gy_w32 g)) (ginf_w32 g)) (mkge (gx g') (fe_normalize_var (gy g')) (ginf g'))).
  { apply rge_intro; [exact GX|exact (rn_rf _ _ N)|exact GI]. }
  f_equal. f_equal.
  - destruct apk; [|reflexivity]. unfold xonly_pubkey_save_w32, xonly_pubkey_save. f_equal. apply r_save, rg12. apply r_even_y'; [exact G1|exact N].
  - destruct cache; [|reflexivity]. f_equal. apply r_cache_save; [exact (rg11 _ _ G1)|exact R|].
    apply rs_of_Z || exact same_zero.
Qed.
Lemma a_pubkey_get apk cache : opt_bytes 197 cache -> musig_pubkey_get_w32 apk cache = musig_pubkey_get apk cache.
Proof.
  intros B. unfold musig_pubkey_get_w32, musig_pubkey_get. destruct apk; [|reflexivity]. destruct cache as [c|]; [|reflexivity]. cload c (B _ eq_refl); [|reflexivity].
  destruct CI as (G & _). rewrite (r_save _ _ (rgtG _ _ G)). reflexivity.
Qed.
Lemma r_set32 l : bytes_n 32 l -> same (fst (s8_set_b32 l)) (fst (sc_set_b32 l)) /\ snd (s8_set_b32 l) = snd (sc_set_b32 l).
Proof. intros [B L]. exact (same_set_b32 l B L). Qed.
Lemma a_tweak_internal o cache tw x : opt_bytes 197 cache -> opt_bytes 32 tw -> musig_pubkey_tweak_add_internal_w32 o cache tw x = musig_pubkey_tweak_add_internal o cache tw x.
Proof.
  intros B T. unfold musig_pubkey_tweak_add_internal_w32, musig_pubkey_tweak_add_internal. cbv zeta. destruct cache as [c|]; [|reflexivity]. destruct tw as [tw|]; [|reflexivity].
  cload c (B _ eq_refl); [|reflexivity]. destruct CI as (G & S2 & H & W & PA). destruct (r_set32 tw (T _ eq_refl)) as [T1 T2].
  destruct (s8_set_b32 tw) as [t ov], (sc_set_b32 tw) as [t' ov']. cbn [fst snd] in T1, T2. subst ov'. destruct ov; [reflexivity|].
  assert (E : forall a b od, RG a b ->
    match eckey_pubkey_tweak_add_w32 a t with
    | None => mkres 0 0 (match o with Some _ => Some (zeros 64) | None => None end, Some c)
    | Some pk => mkres 1 0 (match (match o with Some _ => Some (zeros 64) | None => None end) with Some _ => Some (pubkey_save_w32 pk) | None => None end,
        Some (keyagg_cache_save_w32 (mkcache_w32 pk (ci_second_pk_w32 ci) (ci_pks_hash_w32 ci) (s8_add (if od =? 0 then ci_tweak_w32 ci else s8_negate (ci_tweak_w32 ci)) t)
          (if od =? 0 then ci_parity_acc_w32 ci else Z.lxor (ci_parity_acc_w32 ci) 1)))) end =
    match eckey_pubkey_tweak_add b t' with
    | None => mkres 0 0 (match o with Some _ => Some (zeros 64) | None => None end, Some c)
    | Some pk => mkres 1 0 (match (match o with Some _ => Some (zeros 64) | None => None end) with Some _ => Some (pubkey_save pk) | None => None end,
        Some (keyagg_cache_save (mkcache pk (ci_second_pk ci') (ci_pks_hash ci') (sc_add (if od =? 0 then ci_tweak ci' else sc_negate (ci_tweak ci')) t')
          (if od =? 0 then ci_parity_acc ci' else Z.lxor (ci_parity_acc ci') 1)))) end).
  { intros a b od AB. pose proof (r_pub_tweak_add _ _ _ _ AB T1) as Q.
    destruct (eckey_pubkey_tweak_add_w32 a t) as [q|], (eckey_pubkey_tweak_add b t') as [q'|]; cbn [ropt] in Q; try contradiction; [|reflexivity].
    rewrite H, PA. f_equal. f_equal; [destruct o; [|reflexivity]; rewrite (r_save _ _ (rg11 _ _ Q)); reflexivity|]. f_equal.
    apply r_cache_save; [exact (rg11 _ _ Q)|exact S2|]. destruct (od =? 0); apply same_add; try exact T1; [exact W|]. apply same_negate, W. }
  destruct x.
  - destruct (r_even_y _ _ G) as [R1 R2]. destruct (extrakeys_ge_even_y_w32 (ci_pk_w32 ci)) as [a od], (extrakeys_ge_even_y (ci_pk ci')) as [b od']. cbn [fst snd] in R1, R2. subst od'.
    apply E. exact (rg12 _ _ R1).
  - apply E. exact (rgtG _ _ G).
Qed.

(** * Sessions *)

Lemma r_ser_ext g g' : RG g g' -> musig_ge_serialize_ext_w32 g = musig_ge_serialize_ext g'.
Proof.
  intros G. unfold musig_ge_serialize_ext_w32, musig_ge_serialize_ext. unfold ge_is_infinity_w32, ge_is_infinity. rewrite (r_ginf _ _ _ _ G), (r_pubkey_serialize _ _ true G). reflexivity.
Qed.
Lemma r_parse_ext l : byte_list l -> ropt (rge 1 2) (musig_ge_parse_ext_w32 l) (musig_ge_parse_ext l).
Proof.
  intros B. unfold musig_ge_parse_ext_w32, musig_ge_parse_ext. destruct (_ =? 0); [|apply r_pubkey_parse, B]. apply (rge_weaken 1 1); [exact rg_infinity|lia|lia].
Qed.
Definition rpt (a : ge_w32 * ge_w32) (b : ge * ge) : Prop := rge 1 1 (fst a) (fst b) /\ rge 1 1 (snd a) (snd b).
Lemma r_pubnonce_load c : bytes_n 132 c -> ropt rpt (musig_pubnonce_load_w32 c) (musig_pubnonce_load c).
Proof.
  intros H. unfold musig_pubnonce_load_w32, musig_pubnonce_load. destruct (_ =? 0); [|exact I]. cbn [ropt].
  assert (H1 : bytes_n 64 (take 4 64 c)) by tk H. assert (H2 : bytes_n 64 (take 68 64 c)) by tk H.
  split; apply rgt_rge, rgt_from_bytes; first [apply H1|apply H2].
Qed.
Lemma r_aggnonce_load c : bytes_n 132 c -> ropt rpt (musig_aggnonce_load_w32 c) (musig_aggnonce_load c).
Proof.
  intros H. unfold musig_aggnonce_load_w32, musig_aggnonce_load. destruct (_ =? 0); [|exact I]. cbn [ropt].
  assert (H1 : bytes_n 64 (take 4 64 c)) by tk H. assert (H2 : bytes_n 64 (take 68 64 c)) by tk H.
  split; apply rg_from_bytes_ext; first [apply H1|apply H2].
Qed.
Definition rsn (a : sc8 * sc8 * ge_w32) (b : sc * sc * ge) : Prop := same (fst (fst a)) (fst (fst b)) /\ same (snd (fst a)) (snd (fst b)) /\ rgt (snd a) (snd b).
Lemma rsn_intro a b g a' b' g' : same a a' -> same b b' -> rgt g g' -> ropt rsn (Some (a, b, g)) (Some (a', b', g')).
Proof. intros A B G. split; [exact A|]. split; [exact B|exact G]. Qed.
Lemma r_secnonce_load c : bytes_n 132 c -> ropt rsn (musig_secnonce_load_w32 c) (musig_secnonce_load c).
Proof.
  intros H. unfold musig_secnonce_load_w32, musig_secnonce_load. destruct (negb _); [exact I|]. destruct (is_zero_array _); [exact I|].
  assert (H1 : bytes_n 32 (take 4 32 c)) by tk H. assert (H2 : bytes_n 32 (take 36 32 c)) by tk H. assert (H3 : bytes_n 64 (take 68 64 c)) by tk H.
  apply rsn_intro; [apply r_set32, H1|apply r_set32, H2|]. apply rgt_from_bytes; apply H3.
Qed.
Definition rsi (a : session_internal_w32) (b : session_internal) : Prop :=
  si_fin_nonce_parity_w32 a = si_fin_nonce_parity b /\ si_fin_nonce_w32 a = si_fin_nonce b /\ same (si_noncecoef_w32 a) (si_noncecoef b) /\
  same (si_challenge_w32 a) (si_challenge b) /\ same (si_s_part_w32 a) (si_s_part b).
Lemma r_session_load c : bytes_n 133 c -> ropt rsi (musig_session_load_w32 c) (musig_session_load c).
Proof.
  intros H. unfold musig_session_load_w32, musig_session_load. destruct (_ =? 0); [|exact I]. cbn [ropt].
  assert (H1 : bytes_n 32 (take 37 32 c)) by tk H. assert (H2 : bytes_n 32 (take 69 32 c)) by tk H. assert (H3 : bytes_n 32 (take 101 32 c)) by tk H.
  unfold rsi. cbn [si_fin_nonce_parity_w32 si_fin_nonce_parity si_fin_nonce_w32 si_fin_nonce si_noncecoef_w32 si_noncecoef si_challenge_w32 si_challenge si_s_part_w32 si_s_part].
  split; [reflexivity|]. split; [reflexivity|]. split; [apply r_set32, H1|]. split; apply r_set32; assumption.
Qed.
Lemma r_psig_load c : bytes_n 36 c -> ropt same (musig_partial_sig_load_w32 c) (musig_partial_sig_load c).
Proof.
  intros H. unfold musig_partial_sig_load_w32, musig_partial_sig_load. destruct (_ =? 0); [|exact I]. cbn [ropt].
  assert (H1 : bytes_n 32 (take 4 32 c)) by tk H. apply r_set32, H1.
Qed.
Lemma r_pubnonce_save g g' h h' : RG g g' -> RG h h' -> musig_pubnonce_save_w32 g h = musig_pubnonce_save g' h'.
Proof. intros G H. unfold musig_pubnonce_save_w32, musig_pubnonce_save. rewrite (r_to_bytes _ _ G), (r_to_bytes _ _ H). reflexivity. Qed.
Lemma r_aggnonce_save g g' h h' : RG g g' -> RG h h' -> musig_aggnonce_save_w32 g h = musig_aggnonce_save g' h'.
Proof. intros G H. unfold musig_aggnonce_save_w32, musig_aggnonce_save. rewrite (r_to_bytes_ext _ _ G), (r_to_bytes_ext _ _ H). reflexivity. Qed.
Ltac ld R := match type of R with ropt _ ?a ?b => destruct a as [?|], b as [?|]; cbn [ropt] in R; [|contradiction|contradiction|] end.

Lemma a_pubnonce_parse o inp : opt_bytes 66 inp -> musig_pubnonce_parse_w32 o inp = musig_pubnonce_parse o inp.
Proof.
  intros B. unfold musig_pubnonce_parse_w32, musig_pubnonce_parse. destruct o; [|reflexivity]. destruct inp as [c|]; [|reflexivity]. specialize (B _ eq_refl).
  assert (H1 : bytes_n 33 (take 0 33 c)) by tk B. assert (H2 : bytes_n 33 (take 33 33 c)) by tk B.
  pose proof (r_pubkey_parse _ (proj1 H1)) as R1. ld R1; [|reflexivity]. pose proof (r_pubkey_parse _ (proj1 H2)) as R2. ld R2; [|reflexivity].
  rewrite (r_pubnonce_save _ _ _ _ (rg12 _ _ R1) (rg12 _ _ R2)). reflexivity.
Qed.
Lemma a_aggnonce_parse o inp : opt_bytes 66 inp -> musig_aggnonce_parse_w32 o inp = musig_aggnonce_parse o inp.
Proof.
  intros B. unfold musig_aggnonce_parse_w32, musig_aggnonce_parse. destruct o; [|reflexivity]. destruct inp as [c|]; [|reflexivity]. specialize (B _ eq_refl).
  assert (H1 : bytes_n 33 (take 0 33 c)) by tk B. assert (H2 : bytes_n 33 (take 33 33 c)) by tk B.
  pose proof (r_parse_ext _ (proj1 H1)) as R1. ld R1; [|reflexivity]. pose proof (r_parse_ext _ (proj1 H2)) as R2. ld R2; [|reflexivity].
  rewrite (r_aggnonce_save _ _ _ _ (rg12 _ _ R1) (rg12 _ _ R2)). reflexivity.
Qed.
Lemma a_pubnonce_serialize o inp : opt_bytes 132 inp -> musig_pubnonce_serialize_w32 o inp = musig_pubnonce_serialize o inp.
Proof.
  intros B. unfold musig_pubnonce_serialize_w32, musig_pubnonce_serialize. destruct o; [|reflexivity]. destruct inp as [c|]; [|reflexivity].
  pose proof (r_pubnonce_load c (B _ eq_refl)) as R. ld R; [|reflexivity]. destruct p as [g0 g1], p0 as [h0 h1], R as [R0 R1]. cbn [fst snd] in R0, R1. cbv zeta.
  rewrite (r_pubkey_serialize _ _ true (rg11 _ _ R0)), (r_pubkey_serialize _ _ true (rg11 _ _ R1)). reflexivity.
Qed.
Lemma a_aggnonce_serialize o inp : opt_bytes 132 inp -> musig_aggnonce_serialize_w32 o inp = musig_aggnonce_serialize o inp.
Proof.
  intros B. unfold musig_aggnonce_serialize_w32, musig_aggnonce_serialize. destruct o; [|reflexivity]. destruct inp as [c|]; [|reflexivity].
  pose proof (r_aggnonce_load c (B _ eq_refl)) as R. ld R; [|reflexivity]. destruct p as [g0 g1], p0 as [h0 h1], R as [R0 R1]. cbn [fst snd] in R0, R1.
  rewrite (r_ser_ext _ _ (rg11 _ _ R0)), (r_ser_ext _ _ (rg11 _ _ R1)). reflexivity.
Qed.
Lemma r_psig_save s s' : same s s' -> musig_partial_sig_save_w32 s = musig_partial_sig_save s'.
Proof. intros H. unfold musig_partial_sig_save_w32, musig_partial_sig_save. rewrite (same_get_b32 _ _ H). reflexivity. Qed.
Lemma a_psig_parse o inp : opt_bytes 32 inp -> musig_partial_sig_parse_w32 o inp = musig_partial_sig_parse o inp.
Proof.
  intros B. unfold musig_partial_sig_parse_w32, musig_partial_sig_parse. destruct o; [|reflexivity]. destruct inp as [c|]; [|reflexivity].
  destruct (r_set32 c (B _ eq_refl)) as [T1 T2]. destruct (s8_set_b32 c) as [t ov], (sc_set_b32 c) as [t' ov']. cbn [fst snd] in T1, T2. subst ov'. rewrite (r_psig_save _ _ T1). reflexivity.
Qed.

(** * Nonces *)

Lemma helper_hash8 h k d n : hash8 h -> hash8 (nonce_function_musig_helper h k d n).
Proof. intros H. unfold nonce_function_musig_helper. destruct d; repeat (cbv zeta; apply write_hash8); exact H. Qed.
Lemma r_nonce_function rnd msg sk pk33 agg ex :
  same (fst (nonce_function_musig_w32 rnd msg sk pk33 agg ex)) (fst (nonce_function_musig rnd msg sk pk33 agg ex)) /\
  same (snd (nonce_function_musig_w32 rnd msg sk pk33 agg ex)) (snd (nonce_function_musig rnd msg sk pk33 agg ex)).
Proof.
  unfold nonce_function_musig_w32, nonce_function_musig. cbv beta zeta.
  match goal with |- context [nonce_function_musig_helper ?h 4 ex 32] => set (x := h) end.
  assert (H : hash8 x).
  { subst x. destruct msg; repeat first [apply helper_hash8 | apply write_hash8]; reflexivity. }
  apply (pair_rel same same); apply r_set32, finalize_bytes, write_hash8, helper_hash8, H.
Qed.
Lemma r_secnonce_save a a' b b' g g' : same a a' -> same b b' -> RG g g' -> musig_secnonce_save_w32 a b g = musig_secnonce_save a' b' g'.
Proof. intros A B G. unfold musig_secnonce_save_w32, musig_secnonce_save. rewrite (same_get_b32 _ _ A), (same_get_b32 _ _ B), (r_to_bytes _ _ G). reflexivity. Qed.
Lemma a_nonce_gen_internal c c' sn pn rnd sk pk msg cache ex : rctx c c' -> opt_bytes 32 sk -> opt_bytes 64 pk -> opt_bytes 197 cache ->
  musig_nonce_gen_internal_w32 c sn pn rnd sk pk msg cache ex = musig_nonce_gen_internal c' sn pn rnd sk pk msg cache ex.
Proof.
  intros (Hc & _) K B C. unfold musig_nonce_gen_internal_w32, musig_nonce_gen_internal. destruct pn; [|reflexivity]. destruct pk as [pk|]; [|reflexivity].
  pose proof Hc as (E & _). rewrite E. destruct (negb (g_built _)); [reflexivity|]. cbv zeta.
  assert (ES : match sk with Some k => snd (s8_set_b32_seckey k) | None => true end = match sk with Some k => snd (sc_set_b32_seckey k) | None => true end).
  { destruct sk as [k|]; [|reflexivity]. apply r_seckey, K. reflexivity. }
  rewrite ES. clear ES. set (ret := match sk with Some _ => _ | None => true end). clearbody ret.
  assert (EC : match cache with Some x => match keyagg_cache_load_w32 x with Some ci => Some (Some (f26_get_b32 (gx_w32 (ci_pk_w32 ci)))) | None => None end | None => Some None end =
    match cache with Some x => match keyagg_cache_load x with Some ci => Some (Some (fe_get_b32 (gx (ci_pk ci)))) | None => None end | None => Some None end).
  { destruct cache as [x|]; [|reflexivity]. cload x (C _ eq_refl); [|reflexivity]. destruct CI as ((X & _) & _). rewrite (rt_get_b32 _ _ X). reflexivity. }
  rewrite EC. clear EC. set (ser := match cache with Some _ => _ | None => Some None end). clearbody ser. destruct ser as [ser|]; [|reflexivity].
  tload pk (B _ eq_refl). destruct b; cbn [negb]; [|reflexivity]. rewrite (r_pubkey_serialize _ _ true (rgtG _ _ L0)).
  set (pk33 := match eckey_pubkey_serialize _ true with Some _ => _ | None => _ end). clearbody pk33.
  destruct (r_nonce_function rnd msg sk pk33 ser ex) as [N0 N1]. destruct (nonce_function_musig_w32 rnd msg sk pk33 ser ex) as [k0 k1], (nonce_function_musig rnd msg sk pk33 ser ex) as [k0' k1'].
  cbn [fst snd] in N0, N1. rewrite (r_secnonce_save _ _ _ _ _ _ N0 N1 (rgtG _ _ L0)).
  assert (A : Forall2 (rge 1 1) (ge_set_all_gej_w32 [ecmult_gen_w32 (c_gen_w32 c) k0; ecmult_gen_w32 (c_gen_w32 c) k1]) (ge_set_all_gej [ecmult_gen (c_gen c') k0'; ecmult_gen (c_gen c') k1'])).
  { apply r_set_all. constructor; [apply r_ecmult_gen; assumption|]. constructor; [apply r_ecmult_gen; assumption|constructor]. }
  destruct A as [|? ? ? ? A0 A]; [reflexivity|]. destruct A as [|? ? ? ? A1 A]; [reflexivity|]. destruct A as [|? ? ? ? A2 A]; [|reflexivity].
  rewrite (r_pubnonce_save _ _ _ _ (rg11 _ _ A0) (rg11 _ _ A1)). reflexivity.
Qed.
Lemma a_nonce_gen c c' sn pn rnd sk pk msg cache ex : rctx c c' -> opt_bytes 32 sk -> opt_bytes 64 pk -> opt_bytes 197 cache ->
  musig_nonce_gen_w32 c sn pn rnd sk pk msg cache ex = musig_nonce_gen c' sn pn rnd sk pk msg cache ex.
Proof.
  intros Hc K B C. unfold musig_nonce_gen_w32, musig_nonce_gen. destruct sn; [|reflexivity]. destruct rnd; [|reflexivity]. destruct (is_zero_array _); [reflexivity|]. cbv zeta.
  rewrite (a_nonce_gen_internal c c' _ _ _ _ _ _ _ _ Hc K B C). reflexivity.
Qed.
Lemma a_nonce_gen_counter c c' sn pn cnt kp msg cache ex : rctx c c' -> opt_bytes 96 kp -> opt_bytes 197 cache ->
  musig_nonce_gen_counter_w32 c sn pn cnt kp msg cache ex = musig_nonce_gen_counter c' sn pn cnt kp msg cache ex.
Proof.
  intros Hc B C. unfold musig_nonce_gen_counter_w32, musig_nonce_gen_counter. destruct sn; [|reflexivity]. destruct kp as [kp|]; [|reflexivity]. cbv zeta. specialize (B _ eq_refl).
  rewrite (a_nonce_gen_internal c c' _ _ _ _ _ _ _ _ Hc); [reflexivity| | |exact C].
  - intros l2 E. unfold keypair_sec in E. cbn [r_out] in E. injection E as <-. apply (bytes_first 32 64), B.
  - intros l2 E. unfold keypair_pub in E. cbn [r_out] in E. injection E as <-. apply (bytes_first 64 0). apply (bytes_skip 32 64), B.
Qed.
Definition rjp (a : gej_w32 * gej_w32) (b : gej * gej) : Prop := RJ (fst a) (fst b) /\ RJ (snd a) (snd b).
Lemma r_sum l : Forall (bytes_n 132) l -> forall a b a' b', RJ a a' -> RJ b b' -> ropt rjp (sum_pubnonces_loop_w32 a b l) (sum_pubnonces_loop a' b' l).
Proof.
  induction 1 as [|x l B F IH]; intros a b a' b' A A'; cbn [sum_pubnonces_loop_w32 sum_pubnonces_loop]; [split; assumption|].
  pose proof (r_pubnonce_load x B) as R. ld R; [|exact I]. destruct p as [g0 g1], p0 as [h0 h1], R as [R0 R1]. cbn [fst snd] in R0, R1.
  apply IH; apply rj_add_ge_var; try assumption; apply rg11; assumption.
Qed.
Lemma a_nonce_agg o pns : (forall l, pns = Some l -> Forall (bytes_n 132) l) -> musig_nonce_agg_w32 o pns = musig_nonce_agg o pns.
Proof.
  intros B. unfold musig_nonce_agg_w32, musig_nonce_agg. destruct o; [|reflexivity]. destruct pns as [[|x l2]|]; try reflexivity.
  unfold musig_sum_pubnonces_w32, musig_sum_pubnonces. pose proof (r_sum _ (B _ eq_refl) _ _ _ _ rj_inf4 rj_inf4) as R. ld R; [|reflexivity].
  destruct p as [s0 s1], p0 as [s0' s1'], R as [R0 R1]. cbn [fst snd] in R0, R1.
  assert (A : Forall2 (rge 1 1) (ge_set_all_gej_var_w32 [s0; s1]) (ge_set_all_gej_var [s0'; s1'])) by (apply r_set_all_var; repeat (constructor; try assumption)).
  destruct A as [|? ? ? ? A0 A]; [reflexivity|]. destruct A as [|? ? ? ? A1 A]; [reflexivity|]. destruct A as [|? ? ? ? A2 A]; [|reflexivity].
  rewrite (r_aggnonce_save _ _ _ _ (rg11 _ _ A0) (rg11 _ _ A1)). reflexivity.
Qed.

(** * Signing *)

Lemma r_effective a a' b b' s s' : rge 1 1 a a' -> rge 1 1 b b' -> same s s' -> RJ (effective_nonce_w32 a b s) (effective_nonce a' b' s').
Proof.
  intros A B H. unfold effective_nonce_w32, effective_nonce. apply rj_add_ge_var; [|exact (rg11 _ _ A)]. apply r_ecmult; [apply rj_of_g, B|exact H|exact I].
Qed.
Lemma r_process a a' b b' pk msg : rge 1 1 a a' -> rge 1 1 b b' ->
  fst (musig_nonce_process_internal_w32 a b pk msg) = fst (musig_nonce_process_internal a' b' pk msg) /\
  same (snd (musig_nonce_process_internal_w32 a b pk msg)) (snd (musig_nonce_process_internal a' b' pk msg)).
Proof.
  intros A B. unfold musig_nonce_process_internal_w32, musig_nonce_process_internal. cbv beta zeta.
  assert (EH : musig_compute_noncehash_w32 a b pk msg = musig_compute_noncehash a' b' pk msg).
  { unfold musig_compute_noncehash_w32, musig_compute_noncehash. cbv zeta. rewrite (r_ser_ext _ _ (rg11 _ _ A)), (r_ser_ext _ _ (rg11 _ _ B)). reflexivity. }
  assert (HB : bytes_n 32 (musig_compute_noncehash a' b' pk msg)).
  { unfold musig_compute_noncehash. cbv zeta. apply finalize_bytes. do 4 apply write_hash8. reflexivity. }
  rewrite EH. destruct (r_set32 _ HB) as [S1 _]. apply (pair_rel eq same); [|exact S1].
  pose proof (rg_set_gej _ _ (r_effective _ _ _ _ _ _ A B S1)) as G. set (g := ge_set_gej_w32 _) in *. set (g' := ge_set_gej _) in *. clearbody g g'.
  assert (G2 : rge 1 1 (if ge_is_infinity_w32 g then ge_const_g_w32 else g) (if ge_is_infinity g' then ge_const_g else g')).
  { unfold ge_is_infinity_w32, ge_is_infinity. rewrite (r_ginf _ _ _ _ G). destruct (ginf g'); [exact rg_const_g|exact G]. }
  set (h := if ge_is_infinity_w32 g then _ else _) in *. set (h' := if ge_is_infinity g' then _ else _) in *. clearbody h h'. destruct G2 as (X & Y & _).
  rewrite (rn_is_odd _ _ (rn_normalize_var 1 _ _ Y ltac:(lia))), (rn_get_b32 _ _ (rn_normalize_var 1 _ _ X ltac:(lia))). reflexivity.
Qed.
Lemma r_session_save a b : rsi a b -> musig_session_save_w32 a = musig_session_save b.
Proof.
  intros (E1 & E2 & S1 & S2 & S3). unfold musig_session_save_w32, musig_session_save. rewrite E1, E2, (same_get_b32 _ _ S1), (same_get_b32 _ _ S2), (same_get_b32 _ _ S3). reflexivity.
Qed.
Lemma a_nonce_process o an msg cache : opt_bytes 132 an -> opt_bytes 197 cache -> musig_nonce_process_w32 o an msg cache = musig_nonce_process o an msg cache.
Proof.
  intros B C. unfold musig_nonce_process_w32, musig_nonce_process. destruct o; [|reflexivity]. destruct an as [an|]; [|reflexivity]. destruct msg as [msg|]; [|reflexivity]. destruct cache as [c|]; [|reflexivity].
  cload c (C _ eq_refl); [|reflexivity]. cbv zeta. destruct CI as ((X & Y & _) & _ & _ & W & _). pose proof (r_aggnonce_load an (B _ eq_refl)) as R. ld R; [|reflexivity].
  destruct p as [a0 a1], p0 as [b0 b1], R as [R0 R1]. cbn [fst snd] in R0, R1. rewrite (rt_get_b32 _ _ X). set (px := fe_get_b32 _). clearbody px.
  destruct (r_process _ _ _ _ px msg R0 R1) as [P1 P2].
  destruct (musig_nonce_process_internal_w32 a0 a1 px msg) as [[par fn] bb], (musig_nonce_process_internal b0 b1 px msg) as [[par' fn'] bb']. cbn [fst snd] in P1, P2. injection P1 as -> ->.
  pose proof (same_challenge fn' (firstn 32 msg) px) as SC. set (ch := schnorrsig_challenge_w32 _ _ _) in *. set (ch' := schnorrsig_challenge _ _ _) in *. clearbody ch ch'.
  f_equal. f_equal. apply r_session_save. unfold rsi.
  cbn [si_fin_nonce_parity_w32 si_fin_nonce_parity si_fin_nonce_w32 si_fin_nonce si_noncecoef_w32 si_noncecoef si_challenge_w32 si_challenge si_s_part_w32 si_s_part].
  split; [reflexivity|]. split; [reflexivity|]. split; [exact P2|]. split; [exact SC|].
  rewrite (same_zero_test _ _ W), (rt_is_odd _ _ Y). destruct (negb _); [|apply same_set_int; lia]. destruct (fe_is_odd _); [apply same_negate|]; apply same_mul'; assumption.
Qed.
Lemma a_partial_sign o sn kp cache ss : opt_bytes 132 sn -> opt_bytes 96 kp -> opt_bytes 197 cache -> opt_bytes 133 ss ->
  musig_partial_sign_w32 o sn kp cache ss = musig_partial_sign o sn kp cache ss.
Proof.
  intros B K C D. unfold musig_partial_sign_w32, musig_partial_sign. destruct sn as [sn|]; [|reflexivity]. cbv zeta. pose proof (r_secnonce_load sn (B _ eq_refl)) as R. ld R; [|reflexivity].
  destruct p as [[k0 k1] g], p0 as [[k0' k1'] g'], R as (R0 & R1 & G). cbn [fst snd] in R0, R1, G.
  destruct o; [|reflexivity]. destruct kp as [kp|]; [|reflexivity]. destruct cache as [c|]; [|reflexivity]. destruct ss as [ss|]; [|reflexivity].
  destruct (r_keypair_load kp (K _ eq_refl)) as (E1 & S1 & Q). destruct (keypair_load_w32 kp) as [[ok sk] q], (keypair_load kp) as [[ok' sk'] q']. cbn [fst snd] in E1, S1, Q. subst ok'.
  destruct (negb ok); [reflexivity|]. destruct G as (GX & GY & GI), Q as (QX & QY & QI).
  rewrite (rf_equal 1 _ _ _ _ (rt_rf _ _ GX) (rt_rf _ _ QX) ltac:(lia)), (rf_equal 1 _ _ _ _ (rt_rf _ _ GY) (rt_rf _ _ QY) ltac:(lia)).
  destruct (negb (_ && _)); [reflexivity|]. cload c (C _ eq_refl); [|reflexivity]. destruct CI as ((X & Y & XI) & S2 & H & W & PA).
  pose proof (r_session_load ss (D _ eq_refl)) as R. ld R; [|reflexivity]. destruct R as (F1 & F2 & F3 & F4 & F5).
  rewrite (rt_is_odd _ _ Y), PA, F1. f_equal. f_equal. f_equal. apply r_psig_save. unfold musig_keyaggcoef_w32, musig_keyaggcoef. rewrite H.
  assert (GG : rge 1 1 g g') by (apply rgt_rge; split; [exact GX|split; [exact GY|exact GI]]).
  apply same_add; [|apply same_add]; [apply same_mul'; [exact F4|apply same_mul'; [|apply r_coef; assumption]]| |apply same_mul'; [exact F3|]].
  - destruct (negb _); [apply same_negate|]; exact S1.
  - destruct (_ =? 0); [|apply same_negate]; exact R0.
  - destruct (_ =? 0); [|apply same_negate]; exact R1.
Qed.
Lemma a_partial_verify psig pn pk cache ss : opt_bytes 36 psig -> opt_bytes 132 pn -> opt_bytes 64 pk -> opt_bytes 197 cache -> opt_bytes 133 ss ->
  musig_partial_sig_verify_w32 psig pn pk cache ss = musig_partial_sig_verify psig pn pk cache ss.
Proof.
  intros A B K C D. unfold musig_partial_sig_verify_w32, musig_partial_sig_verify. destruct psig as [psig|]; [|reflexivity]. destruct pn as [pn|]; [|reflexivity].
  destruct pk as [pk|]; [|reflexivity]. destruct cache as [c|]; [|reflexivity]. destruct ss as [ss|]; [|reflexivity].
  pose proof (r_session_load ss (D _ eq_refl)) as R. ld R; [|reflexivity]. destruct R as (F1 & F2 & F3 & F4 & F5).
  pose proof (r_pubnonce_load pn (B _ eq_refl)) as R. ld R; [|reflexivity]. destruct p as [a0 a1], p0 as [b0 b1], R as [R0 R1]. cbn [fst snd] in R0, R1. cbv zeta.
  pose proof (r_effective _ _ _ _ _ _ R0 R1 F3) as EN. set (en := effective_nonce_w32 _ _ _) in *. set (en' := effective_nonce _ _ _) in *. clearbody en en'.
  tload pk (K _ eq_refl). destruct b; cbn [negb]; [|reflexivity]. cload c (C _ eq_refl); [|reflexivity]. destruct CI as ((X & Y & XI) & S2 & H & W & PA).
  pose proof (r_psig_load psig (A _ eq_refl)) as R. ld R; [|reflexivity]. rewrite (rt_is_odd _ _ Y), PA, F1. unfold musig_keyaggcoef_w32, musig_keyaggcoef. rewrite H.
  assert (J : forall a b, RJ a b -> gej_is_infinity_w32 a = gej_is_infinity b) by (intros a b Q; exact (r_jinf _ _ _ _ _ Q)).
  f_equal. f_equal. apply J. apply rj_add_var; [|destruct (_ =? 0); [exact EN|apply rj_neg4, EN]]. apply r_ecmult; [apply rj_of_g, rgt_rge, L0| |apply same_negate, R].
  assert (M : same (s8_mul (si_challenge_w32 s) (musig_keyaggcoef_internal_w32 (ci_pks_hash ci') q (ci_second_pk_w32 ci))) (sc_mul (si_challenge s0) (musig_keyaggcoef_internal (ci_pks_hash ci') g (ci_second_pk ci')))).
  { apply same_mul'; [exact F4|]. apply r_coef; [apply rgt_rge, L0|exact S2]. }
  destruct (negb _); [apply same_negate|]; exact M.
Qed.
Lemma r_psig_loop l : Forall (bytes_n 36) l -> forall s s', same s s' -> ropt same (partial_sig_agg_loop_w32 s l) (partial_sig_agg_loop s' l).
Proof.
  induction 1 as [|x l B F IH]; intros s s' H; cbn [partial_sig_agg_loop_w32 partial_sig_agg_loop]; [exact H|].
  pose proof (r_psig_load x B) as R. ld R; [|exact I]. apply IH, same_add; assumption.
Qed.
Lemma a_partial_agg o ss ps : opt_bytes 133 ss -> (forall l, ps = Some l -> Forall (bytes_n 36) l) -> musig_partial_sig_agg_w32 o ss ps = musig_partial_sig_agg o ss ps.
Proof.
  intros D B. unfold musig_partial_sig_agg_w32, musig_partial_sig_agg. destruct o; [|reflexivity]. destruct ss as [ss|]; [|reflexivity]. destruct ps as [[|x l2]|]; try reflexivity.
  pose proof (r_session_load ss (D _ eq_refl)) as R. ld R; [|reflexivity]. destruct R as (F1 & F2 & F3 & F4 & F5).
  pose proof (r_psig_loop _ (B _ eq_refl) _ _ F5) as R. ld R; [|reflexivity]. rewrite F2, (same_get_b32 _ _ R). reflexivity.
Qed.
