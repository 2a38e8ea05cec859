(** Model of src/hsort_impl.h and of the functions of src/secp256k1.c that use it.

    The array is a list of elements; an access outside it makes the result [None].
    size_t indices are natural numbers: an array of n elements has n < 2^64, and every
    index computed is below n or below 2*(n/2)+1, so no index wraps (the VERIFY_CHECKs
    of the C code say the same).  The comparison callback returns its int result and
    the number of times it called the illegal argument callback; these are summed. *)
Require Import ZArith List Bool.
From Verif Require Import Word Spec HashModel EcdsaModel ApiModel.
Import ListNotations.
Local Open Scope Z_scope.

(** ** Bytes *)

(** src/hsort_impl.h:26-32 secp256k1_heap_swap64: [len] bytes at offsets [a] and [b] of arr;
    memmove allows overlap, the memcpys use a local buffer. *)
Definition heap_swap64 (arr : list Z) (a b : Z) (len : Z) : option (list Z) :=
  match rd_n arr a len with
  | None => None
  | Some tmp =>
    match rd_n arr b len with
    | None => None
    | Some bb => match wr_n arr a bb with None => None | Some arr => wr_n arr b tmp end
    end
  end.
(** src/hsort_impl.h:34-43 secp256k1_heap_swap.  [fuel] bounds the iterations of the while
    loop; [None] if it is too small. *)
Fixpoint heap_swap_loop (fuel : nat) (arr : list Z) (a b len : Z) : option (list Z) :=
  match fuel with
  | O => None
  | S fuel' =>
    if 64 <? len then
      match heap_swap64 arr (a + (len - 64)) (b + (len - 64)) 64 with
      | None => None
      | Some arr => heap_swap_loop fuel' arr a b (len - 64)
      end
    else heap_swap64 arr a b len
  end.
Definition heap_swap_bytes (arr : list Z) (i j stride : Z) : option (list Z) :=
  heap_swap_loop (S (Z.to_nat stride)) arr (i * stride) (j * stride) stride.

(** ** Elements *)

Section Elements.
Context {A : Type}.

(** [arr] with the element at index [i] replaced by [x]. *)
Fixpoint upd (i : nat) (x : A) (arr : list A) : list A :=
  match arr, i with
  | [], _ => []
  | _ :: l, O => x :: l
  | a :: l, S i' => a :: upd i' x l
  end.
(** src/hsort_impl.h:34-43 secp256k1_heap_swap seen on elements (see C18_heap_swap for the
    relation with [heap_swap_bytes]). *)
Definition heap_swap (arr : list A) (i j : nat) : option (list A) :=
  match nth_error arr i, nth_error arr j with
  | Some x, Some y => Some (upd j x (upd i y arr))
  | _, _ => None
  end.
(** src/hsort_impl.h:16-19 secp256k1_heap_child1. *)
Definition heap_child1 (i : nat) : nat := (2 * i + 1)%nat.
(** src/hsort_impl.h:21-24 secp256k1_heap_child2. *)
Definition heap_child2 (i : nat) : nat := (heap_child1 i + 1)%nat.

(** The comparison callback applied to the elements at two indices. *)
Definition cmp_at (cmp : A -> A -> Z * Z) (arr : list A) (i j : nat) : option (Z * Z) :=
  match nth_error arr i, nth_error arr j with Some x, Some y => Some (cmp x y) | _, _ => None end.

(** src/hsort_impl.h:51-105 secp256k1_heap_down.  [fuel] bounds the iterations of the while
    loop, [None] if it is too small; [ill] counts illegal callback calls. *)
Fixpoint heap_down (fuel : nat) (cmp : A -> A -> Z * Z) (arr : list A) (i heap_size : nat) (ill : Z) : option (list A * Z) :=
  match fuel with
  | O => None
  | S fuel' =>
    if (i <? Nat.div heap_size 2)%nat then
      let c1 := heap_child1 i in
      let c2 := heap_child2 i in
      (* else branch of the outer if *)
      let try1 ill :=
        match cmp_at cmp arr c1 i with
        | None => None
        | Some (c, k) =>
          if 0 <? c then
            match heap_swap arr i c1 with None => None | Some arr => heap_down fuel' cmp arr c1 heap_size (ill + k) end
          else Some (arr, ill + k)
        end in
      if (c2 <? heap_size)%nat then
        match cmp_at cmp arr c2 c1 with
        | None => None
        | Some (c, k) =>
          if 0 <=? c then
            match cmp_at cmp arr c2 i with
            | None => None
            | Some (c', k') =>
              if 0 <? c' then
                match heap_swap arr i c2 with None => None | Some arr => heap_down fuel' cmp arr c2 heap_size (ill + k + k') end
              else Some (arr, ill + k + k')
            end
          else try1 (ill + k)
        end
      else try1 ill
    else Some (arr, ill)
  end.

(** src/hsort_impl.h:108-123 secp256k1_hsort.  [hsort_build] is the first for loop, [hsort_pop]
    the second. *)
Fixpoint hsort_build (cmp : A -> A -> Z * Z) (arr : list A) (i count : nat) (ill : Z) : option (list A * Z) :=
  match i with
  | O => Some (arr, ill)
  | S i' =>
    match heap_down (S count) cmp arr i' count ill with
    | None => None
    | Some (arr, ill) => hsort_build cmp arr i' count ill
    end
  end.
Fixpoint hsort_pop (cmp : A -> A -> Z * Z) (arr : list A) (i : nat) (ill : Z) : option (list A * Z) :=
  match i with
  | O => Some (arr, ill)
  | S i' =>
    if (1 <? i)%nat then
      match heap_swap arr 0 i' with
      | None => None
      | Some arr =>
        match heap_down (S i') cmp arr 0 i' ill with
        | None => None
        | Some (arr, ill) => hsort_pop cmp arr i' ill
        end
      end
    else Some (arr, ill)
  end.
Definition hsort (cmp : A -> A -> Z * Z) (arr : list A) (count : nat) : option (list A * Z) :=
  match hsort_build cmp arr (Nat.div count 2) count 0 with
  | None => None
  | Some (arr, ill) => hsort_pop cmp arr count ill
  end.
End Elements.

(** src/secp256k1.c:317-321 secp256k1_ec_pubkey_sort_cmp.  ec_pubkey_cmp never accesses memory
    outside its buffers (proved: C17); the model needs a value for that case. *)
Definition ec_pubkey_sort_cmp (pk1 pk2 : option (list Z)) : Z * Z :=
  match ec_pubkey_cmp pk1 pk2 with Some r => (r_ret r, r_ill r) | None => (0, 0) end.
(** src/secp256k1.c:323-343 secp256k1_ec_pubkey_sort: the array of pointers after the call; a
    pointer may be NULL.  [None] if an access falls outside the array. *)
Definition ec_pubkey_sort (pubkeys : option (list (option (list Z)))) (n_pubkeys : nat) : option (res (option (list (option (list Z))))) :=
  match pubkeys with
  | None => Some (arg_fail None)
  | Some pks =>
    match hsort ec_pubkey_sort_cmp pks n_pubkeys with
    | None => None
    | Some (pks, ill) => Some (mkres 1 ill (Some pks))
    end
  end.
