(** C64: the ElligatorSwift example program (examples/ellswift.c). *)
Require Import ZArith List String.
From Verif Require Import Spec SpecApi SpecHash SpecBip340 SpecEllswift Curve GenModel EcdsaModel ApiModel ApiVocab EllswiftModel EllswiftProof2 ExampleModel ExampleProof EllswiftExampleModel EllswiftExampleProof.
Import ListNotations.
Local Open Scope Z_scope.
Local Notation length := List.length.

(** With valid keys the program prints both secret keys, their encodings and the one shared secret of BIP 324, unless an encoding is still
    being looked for or its first half is 0 modulo p; with an invalid key it fails. *)
Theorem C64_ellswift_program fuel mem rnd k1 k2 a1 a2 p1 p2 s1 s2 : bytes_n 32 rnd -> bytes_n 32 k1 -> bytes_n 32 k2 -> bytes_n 32 a1 -> bytes_n 32 a2 ->
  length s1 = 32%nat -> length s2 = 32%nat ->
  let result := ellswift_main fuel mem (Some rnd) (Some k1) (Some k2) (Some a1) (Some a2) p1 p2 s1 s2 in
  (1 <= be_val k1 < n /\ 1 <= be_val k2 < n /\
   ((exists ctx, usable_context ctx /\ result = Running /\
       (ellswift_create fuel ctx (Some p1) (Some k1) (Some a1) = None \/ ellswift_create fuel ctx (Some p2) (Some k2) (Some a2) = None)) \/
    exists ctx e1 e2, usable_context ctx /\ ellswift_create fuel ctx (Some p1) (Some k1) (Some a1) = Some (mkres 1 0 (Some e1)) /\
      ellswift_create fuel ctx (Some p2) (Some k2) (Some a2) = Some (mkres 1 0 (Some e2)) /\
      (ell_u e1 mod p <> 0 -> ell_u e2 mod p <> 0 ->
       ell_point e1 (pmul (be_val k1) G) /\ ell_point e2 (pmul (be_val k2) G) /\
       result = Success [k1; e1; k2; e2; tagged_hash (ascii_bytes "bip324_ellswift_xonly_ecdh"%string) (e1 ++ e2 ++ be_bytes 32 (xcoord (pmul (be_val k1 * be_val k2) G)))]))) \/
  (~ (1 <= be_val k1 < n /\ 1 <= be_val k2 < n) /\ result = Failure).
Proof. exact (ellswift_runs fuel mem rnd k1 k2 a1 a2 p1 p2 s1 s2). Qed.
Print Assumptions C64_ellswift_program.

(** Random bytes that are the keys 1 and 2. *)
Example C64_ellswift_example : bytes_n 32 (be_bytes 32 1) /\ bytes_n 32 (be_bytes 32 2) /\ 1 <= be_val (be_bytes 32 1) < n /\ 1 <= be_val (be_bytes 32 2) < n.
Proof.
  destruct keys_in_range as [[A B] [C D]]. destruct (key_of 1 (conj Z.le_0_1 B)) as [X1 X2]. destruct (key_of 2 (conj Z.le_0_2 D)) as [Y1 Y2].
  rewrite X2, Y2. exact (conj X1 (conj Y1 (conj (conj A B) (conj C D)))).
Qed.
