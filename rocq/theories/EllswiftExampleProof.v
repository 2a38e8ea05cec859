(** C64: the ElligatorSwift example program. *)
Require Import ZArith List Bool String Lia.
From Verif Require Import Spec SpecApi SpecHash SpecBip340 SpecEllswift Curve Bytes GenModel EcdsaModel ApiModel ApiVocab ApiProof ApiProof2 KeyProps KeyProps2 EllswiftModel EllswiftProof2 EllswiftProps LifeProof ExampleModel ExampleProof EllswiftExampleModel.
Import ListNotations.
Local Open Scope Z_scope.
Local Opaque p n pmul SHA256 tagged_hash be_bytes ellswift_create ellswift_xdh ellswift_xdh_hash_function_bip324.
Local Notation length := List.length.

Lemma ellswift_runs fuel mem rnd k1 k2 a1 a2 p1 p2 s1 s2 : bytes_n 32 rnd -> bytes_n 32 k1 -> bytes_n 32 k2 -> bytes_n 32 a1 -> bytes_n 32 a2 -> length s1 = 32%nat -> length s2 = 32%nat ->
  let result := ellswift_main fuel mem (Some rnd) (Some k1) (Some k2) (Some a1) (Some a2) p1 p2 s1 s2 in
  (1 <= be_val k1 < n /\ 1 <= be_val k2 < n /\
   ((exists ctx, usable_context ctx /\ result = Running /\
       (ellswift_create fuel ctx (Some p1) (Some k1) (Some a1) = None \/ ellswift_create fuel ctx (Some p2) (Some k2) (Some a2) = None)) \/
    exists ctx e1 e2, usable_context ctx /\ ellswift_create fuel ctx (Some p1) (Some k1) (Some a1) = Some (mkres 1 0 (Some e1)) /\
      ellswift_create fuel ctx (Some p2) (Some k2) (Some a2) = Some (mkres 1 0 (Some e2)) /\
      (ell_u e1 mod p <> 0 -> ell_u e2 mod p <> 0 ->
       ell_point e1 (pmul (be_val k1) G) /\ ell_point e2 (pmul (be_val k2) G) /\
       result = Success [k1; e1; k2; e2; tagged_hash (ascii_bytes "bip324_ellswift_xonly_ecdh"%string) (e1 ++ e2 ++ be_bytes 32 (xcoord (pmul (be_val k1 * be_val k2) G)))]))) \/
  (~ (1 <= be_val k1 < n /\ 1 <= be_val k2 < n) /\ result = Failure).
Proof.
  intros HR H1 H2 A1 A2 L1 L2 result. unfold result, ellswift_main. clear result. destruct (start mem) as (ctx & -> & U).
  match goal with |- context [asserted (context_randomize ctx (Some rnd)) ?f] => destruct (randomized ctx rnd f U HR) as (c & U' & ->) end.
  destruct (prop_seckey_verify k1 H1) as [(V1 & E1)|(V1 & E1)]; rewrite E1; [|right; split; [intros [Q _]; exact (V1 Q)|reflexivity]]. rewrite (required_ok _ _ _ eq_refl).
  destruct (prop_seckey_verify k2 H2) as [(V2 & E2)|(V2 & E2)]; rewrite E2; [|right; split; [intros [_ Q]; exact (V2 Q)|reflexivity]]. rewrite (required_ok _ _ _ eq_refl).
  left. split; [exact V1|]. split; [exact V2|].
  destruct (ellswift_create fuel c (Some p1) (Some k1) (Some a1)) as [r1|] eqn:C1; [|left; exists c; auto].
  destruct (create_ok fuel c p1 k1 (Some a1) r1 U' H1 A1 C1) as [(_ & e1 & i1 & -> & B1 & _ & _ & P1)|(Q & _)]; [|contradiction]. rewrite (asserted_ok _ _ _ eq_refl).
  destruct (ellswift_create fuel c (Some p2) (Some k2) (Some a2)) as [r2|] eqn:C2; [|left; exists c; auto].
  destruct (create_ok fuel c p2 k2 (Some a2) r2 U' H2 A2 C2) as [(_ & e2 & i2 & -> & B2 & _ & _ & P2)|(Q & _)]; [|contradiction]. rewrite (asserted_ok _ _ _ eq_refl).
  right. exists c, e1, e2. split; [exact U'|]. split; [exact C1|]. split; [exact C2|]. intros N1 N2. specialize (P1 N1). specialize (P2 N2). split; [exact P1|]. split; [exact P2|].
  destruct (prop_xdh_symmetric e1 e2 k1 k2 s1 s2 ellswift_xdh_hash_function_bip324 B1 B2 H1 H2 V1 V2 (ex_intro _ _ (conj P1 eq_refl)) (ex_intro _ _ (conj P2 eq_refl))) as [X1 X2].
  pose proof (prop_hash_bip324 s1 (be_bytes 32 (xcoord (pmul (be_val k1 * be_val k2) G))) e1 e2 (bytes_n_be 32 _) B1 B2 ltac:(rewrite L1; auto)) as D1.
  pose proof (prop_hash_bip324 s2 (be_bytes 32 (xcoord (pmul (be_val k1 * be_val k2) G))) e1 e2 (bytes_n_be 32 _) B1 B2 ltac:(rewrite L2; auto)) as D2.
  rewrite skipn_all2, app_nil_r in D1 by (rewrite L1; auto). rewrite skipn_all2, app_nil_r in D2 by (rewrite L2; auto).
  pose proof (X1 _ _ D1) as F1. pose proof (X2 _ _ D2) as F2. change (if 1 =? 0 then 0 else 1) with 1 in F1, F2.
  rewrite (asserted_ok _ _ _ F1), (asserted_ok _ _ _ F2). cbn [got]. rewrite memcmp_refl. reflexivity.
Qed.
