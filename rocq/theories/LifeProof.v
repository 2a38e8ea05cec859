(** C63: the life of contexts. *)
Require Import ZArith List Bool Lia String.
From Verif Require Import Word Bytes Spec SpecApi SpecHash SpecBip340 HashModel HashProof GenModel EcdsaModel ApiModel ApiVocab KeyProps LifeModel SpecLife.
Import ListNotations.
Local Open Scope Z_scope.
Local Notation length := List.length.

Fixpoint same (a b : list Z) : bool := match a, b with [], [] => true | x :: a, y :: b => (x =? y) && same a b | _, _ => false end.
Lemma same_eq a : forall b, same a b = true -> a = b.
Proof.
  induction a as [|x a IH]; intros [|y b] E; cbn [same] in E; try discriminate; [reflexivity|].
  apply andb_true_iff in E. destruct E as [E1 E2]. f_equal; [now apply Z.eqb_eq|now apply IH].
Qed.
Lemma digest_same : same (SHA256 selftest_input) selftest_output = true. Proof. vm_cast_no_check (eq_refl true). Qed.
Lemma digest_spec : SHA256 selftest_input = selftest_output.
Proof. exact (same_eq _ _ digest_same). Qed.
Lemma input_bytes : forallb (fun b => (0 <=? b) && (b <? 256)) selftest_input && (Z.of_nat (length selftest_input) <? 2 ^ 61) = true.
Proof. vm_compute. reflexivity. Qed.
Lemma digest : sha256_finalize (sha256_write sha256_initialize selftest_input) = selftest_output.
Proof.
  rewrite <- digest_spec. pose proof input_bytes as B. apply andb_true_iff in B. destruct B as [B L]. rewrite forallb_forall in B.
  apply finalize_ok; [|now apply Z.ltb_lt]. apply (write_at _ [] selftest_input initialize_at).
  apply Forall_forall. intros x Hx. specialize (B x Hx). apply andb_true_iff in B. destruct B as [B1 B2]. apply Z.leb_le in B1. apply Z.ltb_lt in B2. lia.
Qed.
Lemma memcmp_refl l : memcmp_var l l = 0.
Proof. induction l as [|a l IH]; [reflexivity|]. cbn [memcmp_var]. now rewrite Z.sub_diag, Z.eqb_refl. Qed.
Lemma passes : selftest_passes = true.
Proof. unfold selftest_passes. rewrite digest, memcmp_refl. reflexivity. Qed.
Lemma silent : selftest = []. Proof. unfold selftest. now rewrite passes. Qed.
Lemma prop_selftest : SHA256 selftest_input = selftest_output /\ selftest_passes = true /\ selftest = [].
Proof. exact (conj digest_spec (conj passes silent)). Qed.

Lemma low_byte flags : Z.land flags 0xFF = flags mod 256.
Proof. change 0xFF with (Z.ones 8). rewrite Z.land_ones by lia. reflexivity. Qed.
Lemma bit10 flags : (Z.land flags 1024 =? 0) = negb (Z.testbit flags 10).
Proof.
  change 1024 with (2 ^ 10). destruct (Z.testbit flags 10) eqn:T; cbn [negb].
  - apply Z.eqb_neq. intros E. assert (C : Z.testbit (Z.land flags (2 ^ 10)) 10 = true) by (rewrite Z.land_spec, T; reflexivity).
    rewrite E, Z.bits_0 in C. discriminate.
  - apply Z.eqb_eq. apply Z.bits_inj'. intros i Hi. rewrite Z.land_spec, Z.bits_0, Z.pow2_bits_eqb by lia.
    destruct (Z.eqb_spec 10 i) as [<-|]; [now rewrite T|apply andb_false_r].
Qed.
Lemma size_valid size cm flags : flags_valid cm flags -> preallocated_size size cm flags = (size, []) /\ preallocated_size_ok cm flags = true.
Proof.
  intros [H1 H2]. unfold preallocated_size, preallocated_size_ok. rewrite low_byte, H1, bit10. cbn [Z.eqb Pos.eqb negb].
  destruct (Z.testbit flags 10); [rewrite (H2 eq_refl)|]; destruct cm; split; reflexivity.
Qed.
Lemma size_invalid size cm flags : ~ flags_valid cm flags -> preallocated_size size cm flags = (0, [Illegal default_cb]) /\ preallocated_size_ok cm flags = false.
Proof.
  intros H. unfold preallocated_size, preallocated_size_ok. rewrite low_byte, bit10. destruct (Z.eqb_spec (flags mod 256) 1) as [E|E]; cbn [negb]; [|split; reflexivity].
  destruct (Z.testbit flags 10) eqn:T, cm; cbn [negb andb]; try (split; reflexivity); exfalso; apply H; split; congruence.
Qed.

Lemma fresh cm mem flags : flags_valid cm flags -> exists c, context_create cm mem flags = Some c /\ usable_context c /\ c_illegal c = default_cb /\ c_error c = default_cb /\
  c = mkctx (gen_context_build (c_gen mem)) default_cb default_cb (negb (Z.land flags 1024 =? 0)).
Proof.
  intros H. assert (E : context_create cm mem flags = Some (mkctx (gen_context_build (c_gen mem)) default_cb default_cb (negb (Z.land flags 1024 =? 0)))).
  { unfold context_create, context_preallocated_create. now rewrite (proj2 (size_valid 0 cm flags H)). }
  eexists. split; [exact E|]. split; [exact (uc_create _ _ _ _ E)|]. repeat split; reflexivity.
Qed.
Lemma prop_prealloc_create size cm mem flags : size <> 0 ->
  (flags_valid cm flags -> exists c, life_preallocated_create size cm (Some mem) flags = Done [] 0 (Some c) /\ usable_context c /\ c_illegal c = default_cb /\ c_error c = default_cb) /\
  (~ flags_valid cm flags -> forall prealloc, life_preallocated_create size cm prealloc flags = Done [Illegal default_cb] 0 None).
Proof.
  intros HS. split; intros H.
  - destruct (fresh cm mem flags H) as (c & _ & U & I1 & I2 & E). exists c. split; [|auto]. unfold life_preallocated_create.
    rewrite silent, (proj1 (size_valid size cm flags H)). destruct (Z.eqb_spec size 0); [contradiction|]. now rewrite E.
  - intros prealloc. unfold life_preallocated_create. rewrite silent, (proj1 (size_invalid size cm flags H)). reflexivity.
Qed.
Lemma prop_create_valid size cm malloc mem flags : size <> 0 -> flags_valid cm flags -> malloc size = Some mem ->
  exists c, life_create size cm malloc flags = Done [] 1 (Some c) /\ usable_context c /\ c_illegal c = default_cb /\ c_error c = default_cb.
Proof.
  intros HS H M. destruct (proj1 (prop_prealloc_create size cm mem flags HS) H) as (c & E & R). exists c. split; [|exact R].
  unfold life_create, checked_malloc. rewrite (proj1 (size_valid size cm flags H)), M, E. reflexivity.
Qed.
Lemma prop_create_invalid size cm malloc flags : size <> 0 -> ~ flags_valid cm flags ->
  life_create size cm malloc flags =
    Done ([Illegal default_cb] ++ (match malloc 0 with None => [Error default_cb] | Some _ => [] end) ++ [Illegal default_cb]) 0 None.
Proof.
  intros HS H. unfold life_create, checked_malloc. rewrite (proj1 (size_invalid size cm flags H)).
  destruct (malloc 0) as [m|]; rewrite (proj2 (prop_prealloc_create size cm context_static flags HS) H); reflexivity.
Qed.
Lemma prop_create_oom size cm malloc flags : size <> 0 -> flags_valid cm flags -> malloc size = None -> life_create size cm malloc flags = Undefined [Error default_cb].
Proof.
  intros HS H M. unfold life_create, checked_malloc, life_preallocated_create. rewrite (proj1 (size_valid size cm flags H)), M, silent.
  destruct (Z.eqb_spec size 0); [contradiction|]. reflexivity.
Qed.
Lemma proper c : usable_context c -> context_is_proper c = true. Proof. intros U. exact (proj2 (usable_ctx c U)). Qed.
Lemma prop_clone size malloc c : usable_context c ->
  life_clone size malloc c = match malloc size with Some _ => Done [] 1 (Some c) | None => Done [Error (c_error c); Illegal (c_illegal c)] 0 None end.
Proof.
  intros U. unfold life_clone, preallocated_clone_size, checked_malloc, life_preallocated_clone. rewrite (proper c U). cbn [negb].
  destruct (malloc size) as [m|]; reflexivity.
Qed.
Lemma prop_prealloc_clone c prealloc : usable_context c ->
  life_preallocated_clone c prealloc = match prealloc with Some _ => Done [] 0 (Some c) | None => Done [Illegal (c_illegal c)] 0 None end.
Proof. intros U. unfold life_preallocated_clone. rewrite (proper c U). reflexivity. Qed.
Lemma prop_destroy c : usable_context c -> life_destroy (Some c) = Done [] (-1) None /\
  (exists c', life_preallocated_destroy (Some c) = Done [] 0 (Some c') /\ c_gen c' = c_gen context_static).
Proof.
  intros U. unfold life_destroy, life_preallocated_destroy. rewrite (proper c U). split; [reflexivity|]. eexists. split; [reflexivity|]. reflexivity.
Qed.
Lemma prop_static size malloc : life_clone size malloc context_static = Done [Illegal default_cb] 0 None /\
  life_destroy (Some context_static) = Done [Illegal default_cb] 0 (Some context_static) /\ life_destroy None = Done [] 0 None /\
  (forall prealloc, life_preallocated_clone context_static prealloc = Done [Illegal default_cb] 0 None) /\
  life_preallocated_destroy (Some context_static) = Done [Illegal default_cb] 0 (Some context_static) /\ life_preallocated_destroy None = Done [] 0 None.
Proof. repeat split; try reflexivity. intros [m|]; reflexivity. Qed.
Lemma prop_sizes size cm flags c : 
  (flags_valid cm flags -> preallocated_size size cm flags = (size, [])) /\ (~ flags_valid cm flags -> preallocated_size size cm flags = (0, [Illegal default_cb])) /\
  (usable_context c -> preallocated_clone_size size c = (size, [])) /\ preallocated_clone_size size context_static = (0, [Illegal default_cb]).
Proof.
  split; [intros H; exact (proj1 (size_valid size cm flags H))|]. split; [intros H; exact (proj1 (size_invalid size cm flags H))|].
  split; [|reflexivity]. intros U. unfold preallocated_clone_size. now rewrite (proper c U).
Qed.

(** ** Histories *)
Lemma holding_app l c : holding (l ++ [c]) = holding l + block c.
Proof. unfold holding. rewrite filter_app, app_length. destruct c; cbn; lia. Qed.
Lemma holding_put l : forall i c d, nth_error l i = Some c -> holding (put i d l) = holding l - block c + block d.
Proof.
  induction l as [|h l IH]; intros [|i] c d E; cbn in E; try discriminate.
  - injection E as ->. unfold holding. cbn [put filter]. destruct c, d; cbn [List.length block]; lia.
  - specialize (IH i c d E). unfold holding in *. cbn [put filter]. destruct h; cbn [List.length]; lia.
Qed.
Definition all_usable (l : list (option context)) : Prop := forall i c, nth_error l i = Some (Some c) -> usable_context c.
Lemma usable_app l c : all_usable l -> (forall x, c = Some x -> usable_context x) -> all_usable (l ++ [c]).
Proof.
  intros H N i x E. destruct (Nat.lt_ge_cases i (length l)) as [L|L]; [rewrite nth_error_app1 in E by exact L; exact (H i x E)|].
  rewrite nth_error_app2 in E by exact L. destruct (i - length l)%nat as [|k]; [|destruct k; discriminate E]. injection E as ->. now apply N.
Qed.
Lemma put_nth {A} (l : list A) : forall i j d, nth_error (put i d l) j = if Nat.eqb i j then (match nth_error l j with Some _ => Some d | None => None end) else nth_error l j.
Proof.
  induction l as [|h l IH]; intros i j d.
  - destruct (Nat.eqb i j); destruct j, i; reflexivity.
  - destruct i, j; cbn; try reflexivity. apply IH.
Qed.
Lemma usable_put l i c : all_usable l -> (forall x, c = Some x -> usable_context x) -> all_usable (put i c l).
Proof.
  intros H N j x E. rewrite put_nth in E. destruct (Nat.eqb i j); [|exact (H j x E)]. destruct (nth_error l j); [|discriminate]. injection E as ->. now apply N.
Qed.
Definition good (s : life_state) : Prop := l_blocks s = holding (l_ctx s) /\ all_usable (l_ctx s).
Lemma born_good s o s' : good s -> born s o = Some s' -> (forall r b c, o = Done r b c -> b = block c /\ forall x, c = Some x -> usable_context x) -> good s'.
Proof.
  intros [G1 G2] E H. destruct o as [r b c|r]; [|discriminate]. destruct (H r b c eq_refl) as [-> U]. injection E as <-. split; cbn [l_blocks l_ctx].
  - rewrite holding_app, G1. reflexivity.
  - apply usable_app; assumption.
Qed.
Lemma held_nth s i c : held s i = Some c -> nth_error (l_ctx s) i = Some (Some c).
Proof. unfold held. destruct (nth_error (l_ctx s) i) as [[x|]|]; intros E; now inversion E. Qed.
Lemma changed_good s i c o s' : good s -> held s i = Some c -> changed s i o = Some s' ->
  (forall r b d, o = Done r b d -> b = block d - 1 /\ forall x, d = Some x -> usable_context x) -> good s'.
Proof.
  intros [G1 G2] Hc E H. destruct o as [r b d|r]; [|discriminate]. destruct (H r b d eq_refl) as [-> U]. injection E as <-. split; cbn [l_blocks l_ctx].
  - rewrite (holding_put _ _ _ d (held_nth _ _ _ Hc)), G1. cbn [block]. lia.
  - apply usable_put; assumption.
Qed.
Lemma done_inj r b c r' b' c' : Done r b c = Done r' b' c' -> b = b' /\ c = c'. Proof. intros E. injection E as _ -> ->. auto. Qed.
Lemma flags_dec cm flags : flags_valid cm flags \/ ~ flags_valid cm flags.
Proof.
  unfold flags_valid. destruct (Z.eq_dec (flags mod 256) 1) as [E|E]; [|right; tauto].
  destruct cm; [left; tauto|]. destruct (Z.testbit flags 10); [right; intros [_ H]; discriminate (H eq_refl)|left; split; [exact E|discriminate]].
Qed.
Lemma step_good size s op s' : size <> 0 -> life_ok op -> good s -> life_step size s op = Some s' -> good s'.
Proof.
  intros HS OK G E. destruct op as [cm malloc flags|i malloc|i seed|i fn data|i fn data|i| | |malloc]; cbn [life_step] in E.
  - apply (born_good s _ s' G E). intros r b c D.
    destruct (flags_dec cm flags) as [V|V].
    + destruct (malloc size) as [mem|] eqn:M; [|rewrite (prop_create_oom size _ malloc flags HS V M) in D; discriminate].
      destruct (prop_create_valid size _ malloc mem flags HS V M) as (c0 & E0 & U & _). rewrite E0 in D. apply done_inj in D. destruct D as [<- <-].
      split; [reflexivity|]. intros x Q. injection Q as <-. exact U.
    + rewrite (prop_create_invalid size _ malloc flags HS V) in D. apply done_inj in D. destruct D as [<- <-]. split; [reflexivity|discriminate].
  - destruct (held s i) as [c|] eqn:Hc; [|discriminate]. pose proof (proj2 G _ _ (held_nth _ _ _ Hc)) as U. apply (born_good s _ s' G E).
    intros r b d D. rewrite (prop_clone size malloc c U) in D. destruct (malloc size); apply done_inj in D; destruct D as [<- <-]; (split; [reflexivity|]); intros x Q; [injection Q as <-; exact U|discriminate].
  - destruct (held s i) as [c|] eqn:Hc; [|discriminate]. pose proof (proj2 G _ _ (held_nth _ _ _ Hc)) as U. apply (changed_good s i c _ s' G Hc E).
    intros r b d D. apply done_inj in D. destruct D as [<- <-]. split; [reflexivity|]. intros x Q. injection Q as <-. apply uc_randomize; [exact U|]. intros s0 ->. exact OK.
  - destruct (held s i) as [c|] eqn:Hc; [|discriminate]. pose proof (proj2 G _ _ (held_nth _ _ _ Hc)) as U. apply (changed_good s i c _ s' G Hc E).
    intros r b d D. apply done_inj in D. destruct D as [<- <-]. split; [reflexivity|]. intros x Q. injection Q as <-. apply uc_illegal. exact U.
  - destruct (held s i) as [c|] eqn:Hc; [|discriminate]. pose proof (proj2 G _ _ (held_nth _ _ _ Hc)) as U. apply (changed_good s i c _ s' G Hc E).
    intros r b d D. apply done_inj in D. destruct D as [<- <-]. split; [reflexivity|]. intros x Q. injection Q as <-. apply uc_error. exact U.
  - destruct (held s i) as [c|] eqn:Hc; [|discriminate]. pose proof (proj2 G _ _ (held_nth _ _ _ Hc)) as U. apply (changed_good s i c _ s' G Hc E).
    intros r b d D. rewrite (proj1 (prop_destroy c U)) in D. apply done_inj in D. destruct D as [<- <-]. split; [reflexivity|]. discriminate.
  - cbn [life_destroy] in E. injection E as <-. destruct G as [G1 G2]. split; cbn [l_blocks l_ctx]; [rewrite Z.add_0_r|]; assumption.
  - rewrite (proj1 (proj2 (prop_static size (fun _ => None)))) in E. injection E as <-. destruct G as [G1 G2]. split; cbn [l_blocks l_ctx]; [rewrite Z.add_0_r|]; assumption.
  - rewrite (proj1 (prop_static size malloc)) in E. apply (born_good s _ s' G E). intros r b d D. apply done_inj in D. destruct D as [<- <-]. split; [reflexivity|discriminate].
Qed.
Lemma prop_histories size ops s : size <> 0 -> Forall life_ok ops -> life_run size ops life_start = Some s ->
  l_blocks s = holding (l_ctx s) /\ (forall i c, held s i = Some c -> usable_context c).
Proof.
  intros HS F E. assert (G : good s).
  { assert (G0 : good life_start) by (split; [reflexivity|intros [|i] c Q; discriminate Q]). revert G0 E. generalize life_start as s0.
    induction F as [|op t OK F IH]; intros s0 G0 E; cbn [life_run] in E; [injection E as <-; exact G0|].
    destruct (life_step size s0 op) as [s1|] eqn:E1; [|discriminate]. apply (IH s1); [|exact E]. exact (step_good size s0 op s1 HS OK G0 E1). }
  destruct G as [G1 G2]. split; [exact G1|]. intros i c Hc. exact (G2 i c (held_nth _ _ _ Hc)).
Qed.
(** A history with two contexts of which one is destroyed. *)
Definition w_ops : list life_op := [LCreate false (fun _ => Some context_static) 1; LSetError 0 5 6; LClone 0 (fun _ => Some context_static); LClone 0 (fun _ => None); LDestroy 0; LDestroyStatic].
Lemma w_run : Forall life_ok w_ops /\ exists s c, life_run 200 w_ops life_start = Some s /\ l_blocks s = 1 /\ l_ctx s = [None; Some c; None] /\
  l_reports s = [Error (mkcb 5 6); Illegal default_cb; Illegal default_cb].
Proof.
  split; [repeat constructor|]. assert (V : flags_valid false 1) by (split; [reflexivity|discriminate]). assert (S : 200 <> 0) by discriminate.
  destruct (prop_create_valid 200 false (fun _ => Some context_static) context_static 1 S V eq_refl) as (c & E & U & I1 & I2).
  pose proof (uc_error c 5 6 U) as U'. remember (r_out (context_set_error_callback false c 5 6)) as c' eqn:Ec.
  assert (K : c_error c' = mkcb 5 6 /\ c_illegal c' = default_cb) by (rewrite Ec; cbn [context_set_error_callback r_out c_error c_illegal]; auto). destruct K as [K1 K2].
  exists (mklife [None; Some c'; None] 1 [Error (mkcb 5 6); Illegal default_cb; Illegal default_cb]), c'. split; [|repeat split].
  unfold w_ops, life_start. cbn [life_run life_step]. rewrite E. cbn [born l_ctx l_blocks l_reports app held nth_error life_run life_step]. cbv zeta. rewrite <- Ec.
  change (ill c (r_ill (context_set_error_callback false c 5 6))) with (@nil report).
  cbn [changed put l_ctx l_blocks l_reports app]. cbn [held nth_error l_ctx]. rewrite (prop_clone 200 (fun _ => Some context_static) c' U').
  cbn [born l_ctx l_blocks l_reports app held nth_error]. rewrite (prop_clone 200 (fun _ => None) c' U'), K1, K2.
  cbn [born l_ctx l_blocks l_reports app held nth_error]. rewrite (proj1 (prop_destroy c' U')). cbn [changed put l_ctx l_blocks l_reports app].
  rewrite (proj1 (proj2 (prop_static 200 (fun _ => None)))). reflexivity.
Qed.
Lemma w_flags : flags_valid false 1 /\ flags_valid false 0x301 /\ flags_valid true 0x401 /\ ~ flags_valid false 0x401 /\ ~ flags_valid true 0x102.
Proof. unfold flags_valid. repeat split; try discriminate; intros [A B]; [discriminate (B eq_refl)|discriminate A]. Qed.
