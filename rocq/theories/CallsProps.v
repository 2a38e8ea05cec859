(** C37 and C50 from the lemmas about the single calls. *)
Require Import ZArith List Bool Lia.
From Verif Require Import Word Spec SpecApi FieldModel ScalarModel GroupModel GenModel EcmultModel EcdsaModel ApiModel ApiVocab RecoveryModel EcdhModel HsortModel ExtrakeysModel SchnorrModel EllswiftModel MusigModel KeyProps KeyProps2 CallsVocab CallsProof CallsProof4 CallsProof5.
Import ListNotations.
Local Open Scope Z_scope.

Lemma prop_legal c r i : typed c -> args_ok c -> run_call c = Some (r, i) -> i = 0.
Proof. intros T H. exact (all_legal c T H r i). Qed.
Lemma prop_illegal c : typed c -> ~ args_ok c -> ~ goes_on c -> run_call c = Some (0, 1) \/ (run_call c = Some (0, 0) /\ rejected_anyway c).
Proof. apply all_illegal. Qed.

Lemma cmp_bad (i j : Z) (a b : Prop) : (a -> i = 0) -> (~ a -> i = 1) -> (b -> j = 0) -> (~ b -> j = 1) -> {a} + {~ a} -> {b} + {~ b} -> ~ (a /\ b) -> 0 < i + j.
Proof. intros A A' B B' [DA|DA] [DB|DB] H; rewrite ?(A DA), ?(A' DA), ?(B DB), ?(B' DB); try reflexivity. tauto. Qed.
Lemma to_dec {A} (P : A -> Prop) (o : option A) : (forall a, {P a} + {~ P a}) -> {to P o} + {~ to P o}.
Proof. intros D. destruct o; [apply D|right; exact (fun H => H)]. Qed.
Local Opaque ecmult_const pubkey_load.
Lemma prop_goes_on c : typed c -> ~ args_ok c -> goes_on c -> (forall l k, c <> Call_ec_pubkey_sort (Some l) k) ->
  exists r i, run_call c = Some (r, i) /\ 0 < i.
Proof.
  intros T H G NS. destruct c; try destruct G; cbn [typed args_ok run_call] in *.
  - unfold ec_pubkey_cmp. destruct T as [T1 T2]. destruct (cmp_key_ill _ T1) as (o & i & E & A & A'). destruct (cmp_key_ill _ T2) as (o' & j & E' & B & B'). rewrite E, E'.
    eexists _, _. split; [reflexivity|]. apply (cmp_bad i j _ _ A A' B B'); [apply to_dec, pk_ok_dec|apply to_dec, pk_ok_dec|exact H].
  - destruct pks as [l|]; [exfalso; exact (NS l count eq_refl)|]. exists 0, 1. split; reflexivity.
  - unfold ec_pubkey_combine. destruct out as [o|]; [|exists 0, 1; split; reflexivity]. destruct pks as [[|x l]|]; [exists 0, 1; split; reflexivity| |exists 0, 1; split; reflexivity].
    cbn [to given optional] in *. destruct (combine_f (x :: l) T gej_infinity 0 ltac:(lia)) as [(q & i & E & I)|(i & E & I)].
    + left. intros F. apply H. split; [exact Logic.I|]. split; [discriminate|exact F].
    + rewrite E. destruct (gej_is_infinity q); eexists _, i; (split; [reflexivity|exact I]).
    + rewrite E. exists 0, i. split; [reflexivity|exact I].
  - unfold ecdh. destruct out as [o|]; [|exists 0, 1; split; reflexivity]. destruct pk as [pk|]; [|exists 0, 1; split; reflexivity]. destruct key as [k|]; [|exists 0, 1; split; reflexivity].
    cbn [to given optional] in *. destruct (load_f pk T) as [g E]; [tauto|]. rewrite E. destruct (sc_set_b32 k) as [s ov].
    cbv zeta. match goal with |- context [let (_, _) := ?u in _] => destruct u end. eexists _, 1. split; reflexivity.
  - unfold xonly_pubkey_cmp. destruct T as [T1 T2]. destruct (xcmp_key_ill _ T1) as (o & i & E & A & A'). destruct (xcmp_key_ill _ T2) as (o' & j & E' & B & B'). rewrite E, E'.
    eexists _, _. split; [reflexivity|]. apply (cmp_bad i j _ _ A A' B B'); [apply to_dec, pk_ok_dec|apply to_dec, pk_ok_dec|exact H].
Qed.

(** A required pointer is missing. *)
Lemma combine_null l : ~ Forall given l -> forall q i, 0 <= i -> exists j, combine_loop l q i = inr j /\ 0 < j.
Proof.
  induction l as [|[pk|] l IH]; intros H q i I; cbn [combine_loop].
  - destruct H. constructor.
  - destruct (pubkey_load pk) as [ok g]. apply IH; [|destruct ok; lia]. intros F. apply H. constructor; [exact Logic.I|exact F].
  - exists (i + 1). split; [reflexivity|lia].
Qed.
Lemma prop_missing c : missing c -> exists i, run_call c = Some (0, i) /\ 0 < i.
Proof.
  destruct c; intros H; cbn [missing] in H; try exact (False_ind _ H); cbn [run_call].
  - destruct pks as [l|]; [destruct H; exact I|]. exists 1. split; reflexivity.
  - unfold ec_pubkey_combine. destruct out as [o|]; [|exists 1; split; reflexivity]. destruct H as [H|H]; [destruct H; exact I|].
    destruct pks as [[|x l]|]; [exists 1; split; reflexivity| |exists 1; split; reflexivity].
    destruct (combine_null (x :: l)) with (q := gej_infinity) (i := 0) as (j & E & J); [|lia|].
    + intros F. apply H. split; [discriminate|exact F].
    + rewrite E. exists j. split; [reflexivity|exact J].
  - unfold ecdh. destruct out as [o|]; [|exists 1; split; reflexivity]. destruct H as [H|H]; [destruct H; exact I|].
    destruct pk as [pk|]; [|exists 1; split; reflexivity]. destruct key as [k|]; [|exists 1; split; reflexivity].
    destruct H. split; exact I.
Qed.

(** ** The property as stated fails for two functions *)
Local Transparent pubkey_load.
Definition w_zero_key : list Z := repeat 0 64.
Definition w_const_hash : ecdh_hash_function := fun _ _ out => (1, out).
Lemma w_zero_typed : bytes_n 64 w_zero_key.
Proof. split; [|reflexivity]. apply Forall_forall. intros x X. apply repeat_spec in X. subst x. split; [lia|reflexivity]. Qed.
Lemma w_zero_bad : ~ pk_ok w_zero_key.
Proof. intros H. apply H. reflexivity. Qed.
Lemma prop_combine_refuted : exists c, typed c /\ ~ args_ok c /\ run_call c = Some (1, 1).
Proof.
  exists (Call_ec_pubkey_combine (Some w_zero_key) (Some [Some w_zero_key])). split; [|split].
  - constructor; [exact w_zero_typed|constructor].
  - intros (_ & _ & F). inversion F; subst. now apply w_zero_bad.
  - assert (E : exists q, combine_loop [Some w_zero_key] gej_infinity 0 = inl (q, 1) /\ gej_is_infinity q = false) by (eexists; split; [reflexivity|vm_compute; reflexivity]).
    destruct E as (q & E & I0). cbn [run_call]. unfold ec_pubkey_combine. rewrite E, I0. reflexivity.
Qed.
Lemma prop_ecdh_refuted : exists out key hash, bytes_n 32 key /\ 1 <= be_val key < n /\
  typed (Call_ecdh out (Some w_zero_key) (Some key) hash) /\ ~ args_ok (Call_ecdh out (Some w_zero_key) (Some key) hash) /\
  run_call (Call_ecdh out (Some w_zero_key) (Some key) hash) = Some (1, 1).
Proof.
  exists (Some []), (w_key 5), (Some w_const_hash). destruct (w_key_ok 5 (w_small 5 w_5)) as (A & B & C). split; [exact A|]. split; [rewrite B; exact C|]. split; [|split].
  - exact w_zero_typed.
  - intros (_ & H & _). now apply w_zero_bad.
  - assert (L : exists g, pubkey_load w_zero_key = (false, g)) by (eexists; reflexivity). destruct L as [g L].
    assert (S5 : exists s, sc_set_b32 (w_key 5) = (s, false) /\ sc_is_zero s = false) by (eexists; split; vm_compute; reflexivity). destruct S5 as (s & E & Z0).
    cbn [run_call]. unfold ecdh, w_const_hash. rewrite L, E. cbv beta iota zeta. rewrite Z0. reflexivity.
Qed.

(** ** Contexts *)
Lemma static_bad : ~ ctx_ok context_static.
Proof. discriminate. Qed.
Lemma prop_static_refused c : typed c -> call_context c = Some context_static ->
  run_call c = Some (0, 1) \/ (run_call c = Some (0, 0) /\ rejected_anyway c).
Proof.
  intros T H. apply all_illegal; [exact T| |]; destruct c; cbn [call_context] in H; try discriminate H; injection H as ->; cbn [args_ok goes_on]; try exact (fun x => x); pose proof static_bad; tauto.
Qed.

Definition all_usable (w : world) : Prop := w_static w = context_static /\ forall k c, w_heap w k = Some c -> usable_context c.
Lemma usable_proper c : usable_context c -> context_is_proper c = true.
Proof. intros H. exact (proj2 (usable_ctx c H)). Qed.
Lemma upd_same h k c : upd h k c k = c. Proof. unfold upd. now rewrite Nat.eqb_refl. Qed.
Lemma upd_other h k c j : j <> k -> upd h k c j = h j. Proof. intros H. unfold upd. apply Nat.eqb_neq in H. now rewrite H. Qed.
Lemma upd_usable w k c : all_usable w -> (forall c', c = Some c' -> usable_context c') -> all_usable (mkworld (w_static w) (upd (w_heap w) k c)).
Proof.
  intros [U V] H. split; [exact U|]. cbn [w_heap]. intros j c' E. destruct (Nat.eq_dec j k) as [->|N].
  - rewrite upd_same in E. now apply H.
  - rewrite upd_other in E by assumption. exact (V _ _ E).
Qed.
Lemma put_usable w p c : all_usable w -> (p <> Static -> usable_context c) -> (p = Static -> c = context_static) -> all_usable (put w p c).
Proof.
  intros U H H2. destruct p as [|k]; cbn [put].
  - split; [now apply H2|exact (proj2 U)].
  - apply upd_usable; [assumption|]. intros c' E. injection E as <-. apply H. discriminate.
Qed.
Lemma deref_usable w p c : all_usable w -> deref w p = Some c -> (p = Static /\ c = context_static) \/ (p <> Static /\ usable_context c).
Proof.
  intros [U V] E. destruct p as [|k]; cbn [deref] in E.
  - left. injection E as <-. split; [reflexivity|exact U].
  - right. split; [discriminate|]. exact (V _ _ E).
Qed.
Lemma step_usable w op w' : op_ok op -> all_usable w -> step w op = Some w' -> all_usable w'.
Proof.
  intros OK U E. destruct op; cbn [step op_ok] in *.
  - destruct (context_create checkmem mem flags) as [c|] eqn:C; injection E as <-; apply upd_usable; try assumption; intros c' Q; [|discriminate Q].
    injection Q as <-. exact (uc_create _ _ _ _ C).
  - destruct (deref w p) as [c|] eqn:D; [|discriminate]. injection E as <-. apply upd_usable; [assumption|]. intros c' Q.
    destruct (deref_usable _ _ _ U D) as [[_ ->]|[_ V]]; [discriminate Q|]. exact (uc_clone _ _ _ V Q).
  - destruct (deref w p) as [c|] eqn:D; [|discriminate]. injection E as <-. apply put_usable; [assumption| |];
      destruct (deref_usable _ _ _ U D) as [[-> ->]|[N V]]; try tauto; intros _; try reflexivity. apply uc_randomize; assumption.
  - destruct (deref w p) as [c|] eqn:D; [|discriminate]. injection E as <-. apply put_usable; [assumption| |];
      destruct (deref_usable _ _ _ U D) as [[-> ->]|[N V]]; try tauto; intros _; try reflexivity. destruct p; [tauto|]. now apply uc_illegal.
  - destruct (deref w p) as [c|] eqn:D; [|discriminate]. injection E as <-. apply put_usable; [assumption| |];
      destruct (deref_usable _ _ _ U D) as [[-> ->]|[N V]]; try tauto; intros _; try reflexivity. destruct p; [tauto|]. now apply uc_error.
  - destruct (deref w p) as [c|] eqn:D; [|discriminate]. destruct (deref_usable _ _ _ U D) as [[-> ->]|[N V]].
    + cbn in E. injection E as <-. destruct U as [U V]. split; assumption.
    + unfold context_preallocated_destroy in E. rewrite (usable_proper c V) in E. cbn [negb r_ill Z.eqb] in E. destruct p as [|k]; [tauto|]. injection E as <-.
      apply upd_usable; [assumption|]. intros c' Q. discriminate Q.
  - destruct (deref w p) as [c|] eqn:D; [|discriminate]. injection E as <-. exact U.
Qed.
Lemma run_usable ops : forall w w', Forall op_ok ops -> all_usable w -> run_ops ops w = Some w' -> all_usable w'.
Proof.
  induction ops as [|op ops IH]; intros w w' F U E; cbn [run_ops] in E; [injection E as <-; assumption|]. inversion F; subst.
  destruct (step w op) as [w1|] eqn:S1; [|discriminate]. apply (IH w1); [assumption| |assumption]. exact (step_usable _ _ _ H1 U S1).
Qed.
Lemma init_usable : all_usable init_world.
Proof. split; [reflexivity|]. intros k c E. discriminate E. Qed.
Lemma prop_history_usable ops w : Forall op_ok ops -> run_ops ops init_world = Some w ->
  w_static w = context_static /\ forall k c, w_heap w k = Some c -> usable_context c.
Proof. intros F E. exact (run_usable _ _ _ F init_usable E). Qed.

(** Which operations change which fields. *)
Definition fields (op : ctx_op) (k : nat) (c c' : context) : Prop :=
  ((forall seed, op <> Op_randomize (Heap k) seed) -> c_gen c' = c_gen c) /\
  c_illegal c' = match sets_illegal k op with Some cb => cb | None => c_illegal c end /\
  c_error c' = match sets_error k op with Some cb => cb | None => c_error c end /\
  c_declassify c' = c_declassify c.
Lemma step_fields w op w' k c : step w op = Some w' -> w_heap w k = Some c -> ~ makes op k -> op <> Op_destroy (Heap k) ->
  exists c', w_heap w' k = Some c' /\ fields op k c c'.
Proof.
  intros E H M ND. destruct op; cbn [step makes] in *; unfold fields; cbn [sets_illegal sets_error].
  - exists c. injection E as <-; cbn [w_heap]; rewrite upd_other by congruence. now repeat split.
  - exists c. destruct (deref w p); [|discriminate]. injection E as <-. cbn [w_heap]. rewrite upd_other by congruence. now repeat split.
  - destruct (deref w p) as [d|] eqn:D; [|discriminate]. injection E as <-. destruct p as [|j]; cbn [put w_heap deref] in *; [exists c; now repeat split|].
    destruct (Nat.eq_dec k j) as [->|N]; [|rewrite upd_other by assumption; exists c; now repeat split].
    rewrite upd_same. eexists. split; [reflexivity|]. rewrite H in D. injection D as <-. split; [intros Q; now destruct (Q seed)|]. unfold context_randomize.
    destruct (negb (context_is_proper c)); [now repeat split|]. destruct (g_built (c_gen c)); now repeat split.
  - destruct (deref w p) as [d|] eqn:D; [|discriminate]. injection E as <-. destruct p as [|j]; cbn [put w_heap deref is_static] in *; [exists c; now repeat split|].
    destruct (Nat.eq_dec k j) as [->|N].
    + rewrite upd_same, Nat.eqb_refl. eexists. split; [reflexivity|]. rewrite H in D. injection D as <-. now repeat split.
    + rewrite upd_other by assumption. replace (Nat.eqb j k) with false by (symmetry; apply Nat.eqb_neq; congruence). exists c; now repeat split.
  - destruct (deref w p) as [d|] eqn:D; [|discriminate]. injection E as <-. destruct p as [|j]; cbn [put w_heap deref is_static] in *; [exists c; now repeat split|].
    destruct (Nat.eq_dec k j) as [->|N].
    + rewrite upd_same, Nat.eqb_refl. eexists. split; [reflexivity|]. rewrite H in D. injection D as <-. now repeat split.
    + rewrite upd_other by assumption. replace (Nat.eqb j k) with false by (symmetry; apply Nat.eqb_neq; congruence). exists c; now repeat split.
  - exists c. destruct (deref w p) as [d|] eqn:D; [|discriminate]. destruct (r_ill (context_preallocated_destroy d) =? 0).
    + destruct p as [|j]; injection E as <-; cbn [w_heap]; [now repeat split|]. rewrite upd_other by congruence. now repeat split.
    + injection E as <-. now repeat split.
  - exists c. destruct (deref w p); [|discriminate]. injection E as <-. now repeat split.
Qed.
Lemma prop_history_fields ops : forall w w' k c, run_ops ops w = Some w' -> w_heap w k = Some c ->
  (forall op, In op ops -> ~ makes op k /\ op <> Op_destroy (Heap k)) ->
  exists c', w_heap w' k = Some c' /\ c_declassify c' = c_declassify c /\
    ((forall seed, ~ In (Op_randomize (Heap k) seed) ops) -> c_gen c' = c_gen c) /\
    c_illegal c' = last_set (sets_illegal k) ops (c_illegal c) /\ c_error c' = last_set (sets_error k) ops (c_error c).
Proof.
  induction ops as [|op ops IH]; intros w w' k c E H N; cbn [run_ops last_set] in *.
  - injection E as <-. exists c. now repeat split.
  - destruct (step w op) as [w1|] eqn:S1; [|discriminate]. destruct (N op (or_introl eq_refl)) as [M ND].
    destruct (step_fields _ _ _ _ _ S1 H M ND) as (c1 & H1 & F1 & F2 & F3 & F4).
    destruct (IH w1 w' k c1 E H1 (fun o i => N o (or_intror i))) as (c' & E' & D & G & I1 & I2). exists c'. split; [exact E'|]. split; [congruence|]. split; [|split].
    + intros NR. rewrite G by (intros seed i; exact (NR seed (or_intror i))). apply F1. intros seed Q. exact (NR seed (or_introl Q)).
    + now rewrite I1, F2.
    + now rewrite I2, F3.
Qed.
Lemma prop_clone w p k mem c w' : deref w p = Some c -> usable_context c -> run_ops [Op_clone p k mem] w = Some w' -> w_heap w' k = Some c.
Proof.
  intros D U E. cbn [run_ops step] in E. rewrite D in E. injection E as <-. cbn [w_heap]. rewrite upd_same. unfold context_clone, context_preallocated_clone.
  now rewrite (usable_proper c U).
Qed.

Lemma run_cons op ops w w1 w' : step w op = Some w1 -> run_ops ops w1 = Some w' -> run_ops (op :: ops) w = Some w'.
Proof. intros A B. cbn [run_ops]. now rewrite A. Qed.
(** A history with all the operations. *)
Definition w_ops : list ctx_op :=
  [Op_create 0 false context_static 1; Op_set_illegal (Heap 0) 7 8; Op_clone (Heap 0) 1 context_static; Op_randomize (Heap 0) (Some (w_key 5));
   Op_set_illegal Static 9 9; Op_randomize Static None; Op_destroy Static; Op_other (Heap 1) (fun c => Call_ec_pubkey_create c (Some []) (Some (w_key 5)));
   Op_set_error (Heap 1) 3 4; Op_destroy (Heap 0)].
Lemma w_ops_run : exists w c, run_ops w_ops init_world = Some w /\ w_heap w 1%nat = Some c /\ c_illegal c = mkcb 7 8 /\ c_error c = mkcb 3 4.
Proof.
  destruct fresh_context as [c0 E]. set (c1 := r_out (context_set_illegal_callback false c0 7 8)).
  assert (U0 : usable_context c0) by exact (uc_create _ _ _ _ E).
  assert (U1 : usable_context c1) by (apply uc_illegal; exact U0).
  assert (CL : r_out (context_clone c1 context_static) = Some c1) by (unfold context_clone, context_preallocated_clone; now rewrite (usable_proper c1 U1)).
  assert (U2 : usable_context (r_out (context_randomize c1 (Some (w_key 5))))).
  { apply uc_randomize; [exact U1|]. intros s Q. injection Q as <-. exact (proj1 (w_key_ok 5 (w_small 5 w_5))). }
  set (c2 := r_out (context_randomize c1 (Some (w_key 5)))) in *.
  assert (IL : r_ill (context_preallocated_destroy c2) = 0) by (unfold context_preallocated_destroy; now rewrite (usable_proper c2 U2)).
  assert (RS : r_out (context_randomize context_static None) = context_static) by reflexivity.
  assert (DS : r_ill (context_preallocated_destroy context_static) = 1) by reflexivity.
  unfold w_ops. assert (RD : r_out (context_randomize c1 (Some (w_key 5))) = c2) by exact eq_refl. clearbody c2.
  eexists _, _. split.
  - eapply run_cons; [cbn [step init_world w_static w_heap]; rewrite E; exact eq_refl|].
    eapply run_cons; [cbn [step deref put is_static w_static w_heap]; rewrite upd_same; fold c1; exact eq_refl|].
    eapply run_cons; [cbn [step deref put is_static w_static w_heap]; rewrite upd_same, CL; exact eq_refl|].
    eapply run_cons; [cbn [step deref put is_static w_static w_heap]; rewrite upd_other by discriminate; rewrite upd_same, RD; exact eq_refl|].
    eapply run_cons; [cbn [step deref put is_static w_static w_heap]; exact eq_refl|].
    eapply run_cons; [cbn [step deref put is_static w_static w_heap]; exact eq_refl|].
    eapply run_cons; [cbn [step deref put is_static w_static w_heap]; exact eq_refl|].
    eapply run_cons; [cbn [step deref put is_static w_static w_heap]; rewrite upd_other by discriminate; rewrite upd_same; exact eq_refl|].
    eapply run_cons; [cbn [step deref put is_static w_static w_heap]; rewrite upd_other by discriminate; rewrite upd_same; exact eq_refl|].
    eapply run_cons; [cbn [step deref put is_static w_static w_heap]; rewrite upd_other by discriminate; rewrite upd_same, IL; exact eq_refl|].
    exact eq_refl.
  - cbn [w_heap]. rewrite upd_other by discriminate. rewrite upd_same. split; [exact eq_refl|]. split; exact eq_refl.
Qed.
Lemma w_illegal_call : typed (Call_ec_pubkey_create context_static (Some []) (Some (w_key 5))) /\ ~ args_ok (Call_ec_pubkey_create context_static (Some []) (Some (w_key 5))) /\ ~ goes_on (Call_ec_pubkey_create context_static (Some []) (Some (w_key 5))).
Proof. split; [cbn [typed]; first [exact I|exact (proj1 (w_key_ok 5 (w_small 5 w_5)))|split; [exact I|exact (proj1 (w_key_ok 5 (w_small 5 w_5)))]]|]. split; [|exact (fun x => x)]. cbn [args_ok]. pose proof static_bad. tauto. Qed.
Lemma w_legal_call : typed (Call_ec_pubkey_create w_ctx (Some []) (Some (w_key 5))) /\ args_ok (Call_ec_pubkey_create w_ctx (Some []) (Some (w_key 5))).
Proof. split; [cbn [typed]; exact I|]. pose proof (usable_proper _ w_ctx_ok). cbn [args_ok given]. split; [exact H|split; exact I]. Qed.
