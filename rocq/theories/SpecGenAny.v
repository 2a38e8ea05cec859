(** Vocabulary for C61: table configurations of the generator multiplication. *)
Require Import ZArith List.
From Verif Require Import Spec FieldModel ScalarModel GroupModel GenModel GenAnyModel.
Import ListNotations.
Local Open Scope Z_scope.

(** [spacing_is g s]: s is the least distance between teeth for which the blocks cover
    256 bits (the documentation in src/ecmult_gen.h:14-30). *)
Definition spacing_is (g : comb) (s : nat) : Prop :=
  (256 <= blocks g * teeth g * s)%nat /\ (blocks g * teeth g * (s - 1) < 256)%nat.
(** The configurations the documentation allows: 1 to 256 blocks, 1 to 8 teeth, and neither
    a block nor a tooth that lies wholly above bit 255. *)
Definition allowed (g : comb) : Prop :=
  (1 <= blocks g <= 256)%nat /\ (1 <= teeth g <= 8)%nat /\
  exists s, spacing_is g s /\ ((blocks g - 1) * teeth g * s < 256)%nat /\ (blocks g * (teeth g - 1) * s < 256)%nat.

(** The coefficient of G/2 in entry [i] of block [b]: tooth t stands at bit (b * teeth + t) * s
    and counts positively if bit t of i is set, negatively otherwise. *)
Definition comb_coefficient (g : comb) (s : nat) (b i : nat) : Z :=
  fold_right Z.add 0 (map (fun t => (if Z.testbit (Z.of_nat i) (Z.of_nat t) then 1 else -1) * 2 ^ Z.of_nat ((b * teeth g + t) * s)) (seq 0 (teeth g))).
(** A stored point: two integers as four 64-bit words each, least significant first. *)
Definition stored_int (a : fe_storage) (v : Z) : Prop :=
  (0 <= s0 a < 2 ^ 64) /\ (0 <= s1 a < 2 ^ 64) /\ (0 <= s2 a < 2 ^ 64) /\ (0 <= s3 a < 2 ^ 64) /\
  s0 a + 2 ^ 64 * s1 a + 2 ^ 128 * s2 a + 2 ^ 192 * s3 a = v.
Definition stored_point (e : ge_storage) (P : point) : Prop :=
  exists x y, P = Aff x y /\ on_curve P /\ stored_int (stx e) x /\ stored_int (sty e) y.

(** The generator contexts a program compiled with [g] can have: built in any memory, then
    blinded any number of times, with any seeds or none. *)
Inductive gen_context_of (g : comb) : gen_ctx -> Prop :=
| Built memory : gen_context_of g (any_context_build g (prec_table g) memory)
| Blinded c seed : gen_context_of g c -> (forall s, seed = Some s -> byte_list s /\ length s = 32%nat) ->
    gen_context_of g (any_blind g (prec_table g) c seed).
