(* The two certificates hold: 590 and 744 division steps bring every 256-bit input to zero. *)
Require Import ZArith List Lia.
From Verif Require Import Safegcd SafegcdCert1 SafegcdCert2.
Import ListNotations.
Local Open Scope Z_scope.

Lemma cert_590_ok : cert_ok 1 (todo 1 4) [] cert_590 = true.
Proof. vm_cast_no_check (@eq_refl bool true). Qed.

Lemma cert_744_ok : cert_ok 2 (todo 2 2) [] cert_744 = true.
Proof. vm_cast_no_check (@eq_refl bool true). Qed.

Lemma base_590 : base_ok 1 cert_590 = true.
Proof. vm_cast_no_check (@eq_refl bool true). Qed.

Lemma base_744 : base_ok 2 cert_744 = true.
Proof. vm_cast_no_check (@eq_refl bool true). Qed.

Definition starts (l : list entry) (r : nat) : bool :=
  match nth_error l r with Some c => start_ok (2 ^ 256) c | None => false end.

Lemma start_590 : starts cert_590 590 = true.
Proof. vm_cast_no_check (@eq_refl bool true). Qed.

Lemma start_744 : starts cert_744 744 = true.
Proof. vm_cast_no_check (@eq_refl bool true). Qed.

Local Opaque cert_590 cert_744.

(* 590 steps of the constant time variant. *)
Theorem dsteps_590 : forall m x, Z.odd m = true -> 0 <= x <= m -> m <= 2 ^ 256 ->
  exists c f, dsteps 1 590 (-1, m, x) = (c, f, 0).
Proof.
  intros m x Om Hx Hm. pose proof start_590 as Hs. unfold starts in Hs.
  destruct (@nth_error entry cert_590 590) as [c|] eqn:E; [|discriminate].
  exact (steps_enough_start 1 4 cert_590 (or_introl eq_refl) (Nat.lt_0_succ 3) cert_590_ok base_590
           (2 ^ 256) m x c 590 E Hs Hx Hm Om).
Qed.

(* 744 steps of the variable time variant. *)
Theorem dsteps_744 : forall m x, Z.odd m = true -> 0 <= x <= m -> m <= 2 ^ 256 ->
  exists c f, dsteps 2 744 (-1, m, x) = (c, f, 0).
Proof.
  intros m x Om Hx Hm. pose proof start_744 as Hs. unfold starts in Hs.
  destruct (@nth_error entry cert_744 744) as [c|] eqn:E; [|discriminate].
  exact (steps_enough_start 2 2 cert_744 (or_intror eq_refl) (Nat.lt_0_succ 1) cert_744_ok base_744
           (2 ^ 256) m x c 744 E Hs Hx Hm Om).
Qed.
