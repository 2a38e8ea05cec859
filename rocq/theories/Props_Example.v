(** C64: the example programs (examples/ecdh.c, examples/ecdsa.c). *)
Require Import ZArith List.
From Verif Require Import Spec SpecApi SpecHash Curve GenModel EcdsaModel ApiModel ApiVocab ExampleModel ExampleProof.
Import ListNotations.
Local Open Scope Z_scope.
Local Notation length := List.length.

(** No assertion of the ECDH program fails and no callback is called, whatever the random source gives and whatever the variables
    hold at the start. *)
Theorem C64_ecdh_program_alive mem rnd k1 k2 pk1 pk2 c1 c2 s1 s2 : opt_bytes 32 rnd -> opt_bytes 32 k1 -> opt_bytes 32 k2 ->
  length c1 = 33%nat -> length c2 = 33%nat -> length s1 = 32%nat -> length s2 = 32%nat ->
  ecdh_main mem rnd k1 k2 pk1 pk2 c1 c2 s1 s2 <> Killed.
Proof. exact (prop_ecdh_alive mem rnd k1 k2 pk1 pk2 c1 c2 s1 s2). Qed.
Print Assumptions C64_ecdh_program_alive.

(** It prints both key pairs and the shared secret when both secret keys are valid, and fails otherwise. *)
Theorem C64_ecdh_program mem rnd k1 k2 pk1 pk2 c1 c2 s1 s2 : bytes_n 32 rnd -> bytes_n 32 k1 -> bytes_n 32 k2 ->
  length c1 = 33%nat -> length c2 = 33%nat -> length s1 = 32%nat -> length s2 = 32%nat ->
  (1 <= be_val k1 < n /\ 1 <= be_val k2 < n /\
   exists x1 y1 x2 y2 x y, pmul (be_val k1) G = Aff x1 y1 /\ pmul (be_val k2) G = Aff x2 y2 /\ pmul (be_val k1) (Aff x2 y2) = Aff x y /\
     ecdh_main mem (Some rnd) (Some k1) (Some k2) pk1 pk2 c1 c2 s1 s2 =
       Success [k1; enc_compressed x1 y1; k2; enc_compressed x2 y2; SHA256 (enc_compressed x y)]) \/
  (~ (1 <= be_val k1 < n /\ 1 <= be_val k2 < n) /\ ecdh_main mem (Some rnd) (Some k1) (Some k2) pk1 pk2 c1 c2 s1 s2 = Failure).
Proof. exact (ecdh_runs mem rnd k1 k2 pk1 pk2 c1 c2 s1 s2). Qed.
Print Assumptions C64_ecdh_program.

Theorem C64_ecdsa_program_alive fuel mem rnd key pk c sg ser : opt_bytes 32 rnd -> opt_bytes 32 key -> length c = 33%nat ->
  ecdsa_main fuel mem rnd key pk c sg ser <> Killed.
Proof. exact (prop_ecdsa_alive fuel mem rnd key pk c sg ser). Qed.
Print Assumptions C64_ecdsa_program_alive.

(** The ECDSA program with a valid key prints the verdict true (1), the key pair and a valid low-S signature, unless signing is still
    looking for a nonce; with an invalid key it fails. *)
Theorem C64_ecdsa_program fuel mem rnd key pk c sg ser : bytes_n 32 rnd -> bytes_n 32 key -> length c = 33%nat ->
  (1 <= be_val key < n /\
   ((exists ctx, usable_context ctx /\ ecdsa_sign fuel ctx (Some sg) (Some example_hash) (Some key) None None = None /\
       ecdsa_main fuel mem (Some rnd) (Some key) pk c sg ser = Running) \/
    exists x y r s, pmul (be_val key) G = Aff x y /\ 1 <= r < n /\ 1 <= s <= n / 2 /\ ecdsa_valid (Aff x y) (be_val example_hash) r s /\
      ecdsa_main fuel mem (Some rnd) (Some key) pk c sg ser = Success [[1]; key; enc_compressed x y; be_bytes 32 r ++ be_bytes 32 s])) \/
  (~ 1 <= be_val key < n /\ ecdsa_main fuel mem (Some rnd) (Some key) pk c sg ser = Failure).
Proof. exact (ecdsa_runs fuel mem rnd key pk c sg ser). Qed.
Print Assumptions C64_ecdsa_program.

(** Random bytes that are the keys 1 and 2, and a seed. *)
Example C64_example : bytes_n 32 (be_bytes 32 1) /\ bytes_n 32 (be_bytes 32 2) /\ 1 <= be_val (be_bytes 32 1) < n /\ 1 <= be_val (be_bytes 32 2) < n.
Proof.
  destruct keys_in_range as [[A B] [C D]]. destruct (key_of 1 (conj Z.le_0_1 B)) as [X1 X2]. destruct (key_of 2 (conj Z.le_0_2 D)) as [Y1 Y2].
  rewrite X2, Y2. repeat split; try apply X1; try apply Y1; assumption.
Qed.
