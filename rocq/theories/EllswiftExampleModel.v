(** The example program examples/ellswift.c. *)
Require Import ZArith List Bool.
From Verif Require Import Spec GenModel EcdsaModel ApiModel EllswiftModel ExampleModel.
Import ListNotations.
Local Open Scope Z_scope.

(** examples/ellswift.c:25-122 main: [mem] is the memory of the context, [randomize], the keys and the auxiliary randomness what fill_random
    wrote (None if it failed), the rest the contents of the uninitialized variables; fuel for the search of encodings.  Destroying the
    context and erasing the secrets are left out. *)
Definition ellswift_main (fuel : nat) (mem : context) (randomize seckey1 seckey2 auxrand1 auxrand2 : option (list Z))
  (ellswift_pubkey1 ellswift_pubkey2 shared1 shared2 : list Z) : ending :=
  match context_create false mem 1 with
  | None => Killed
  | Some ctx =>
    match randomize with
    | None => Failure
    | Some rnd =>
      asserted (context_randomize ctx (Some rnd)) (fun ctx =>
      match seckey1, seckey2 with
      | Some k1, Some k2 =>
        required (ec_seckey_verify (Some k1)) (fun _ =>
        required (ec_seckey_verify (Some k2)) (fun _ =>
        match auxrand1, auxrand2 with
        | Some a1, Some a2 =>
          match ellswift_create fuel ctx (Some ellswift_pubkey1) (Some k1) (Some a1) with
          | None => Running
          | Some r1 => asserted r1 (fun e1 =>
            match ellswift_create fuel ctx (Some ellswift_pubkey2) (Some k2) (Some a2) with
            | None => Running
            | Some r2 => asserted r2 (fun e2 =>
              asserted (ellswift_xdh (Some shared1) e1 e2 (Some k1) 0 (Some ellswift_xdh_hash_function_bip324)) (fun s1 =>
              asserted (ellswift_xdh (Some shared2) e1 e2 (Some k2) 1 (Some ellswift_xdh_hash_function_bip324)) (fun s2 =>
              if memcmp_var (got s1) (got s2) =? 0 then Success [k1; got e1; k2; got e2; got s1] else Killed)))
            end)
          end
        | _, _ => Failure
        end))
      | _, _ => Failure
      end)
    end
  end.
