(** Model of the multi-point multiplication of src/ecmult_impl.h: Strauss and Pippenger
    batches, the simple fallback and the batching around them.

    The caller's callback is a function of its own state (cbdata) and the index; it
    returns the scalar and the point or, for return value 0, [None].  Results are [None]
    for undefined behaviour, and otherwise the return value with the result ([None] for
    0), the callback's state and the scratch space.  The arrays placed in the scratch
    space are lists here; the space itself only keeps account of the allocations (their
    disjointness and bounds are C38).  Calls of the error callback by the scratch
    functions are not recorded. *)
Require Import ZArith List Bool.
From Verif Require Import Word Spec FieldModel ScalarModel GroupModel HashModel EcmultModel ScratchModel.
Import ListNotations.
Local Open Scope Z_scope.
Local Open Scope c_scope.

(** sizeof of secp256k1_fe, _ge, _gej, _scalar, secp256k1_strauss_point_state,
    secp256k1_pippenger_point_state, secp256k1_pippenger_state and int with the 5x52
    field, the 4x64 scalar, 8-byte pointers and 4-byte ints (no VERIFY fields). *)
Definition sizeof_fe : Z := 40.
Definition sizeof_ge : Z := 88.
Definition sizeof_gej : Z := 128.
Definition sizeof_scalar : Z := 32.
Definition sizeof_strauss_ps : Z := 1040.
Definition sizeof_pippenger_ps : Z := 16.
Definition sizeof_pippenger_state : Z := 16.
Definition sizeof_int : Z := 4.
(** src/util.h:180 (CEIL_DIV) in size_t. *)
Definition ceil_div (x y : Z) : Z := w64 (1 + w64 (x - 1) / y).
(** src/ecmult_impl.h:44-46 (WNAF_BITS, WNAF_SIZE). *)
Definition wnaf_size (w : Z) : Z := 1 + (128 - 1) / w.
(** src/ecmult_impl.h:49-57: the limits. *)
Definition pippenger_scratch_objects : Z := 6.
Definition strauss_scratch_objects : Z := 5.
Definition pippenger_max_bucket_window : Z := 12.
Definition pippenger_threshold : Z := 88.
Definition max_points_per_batch : Z := 5000000.

(** A sequence of secp256k1_scratch_alloc calls: the pointers and the space. *)
Fixpoint allocs (align : Z) (w : space) (sizes : list Z) : option (list (option Z) * space) :=
  match sizes with
  | [] => Some ([], w)
  | size :: sizes' =>
    match scratch_alloc align w size with
    | None => None
    | Some (_, p, w') => match allocs align w' sizes' with Some (ps, w'') => Some (p :: ps, w'') | None => None end
    end
  end.
(** Whether one of the pointers is NULL. *)
Definition some_null (ps : list (option Z)) : bool := existsb (fun p => match p with None => true | Some _ => false end) ps.

(** src/ecmult_impl.h:421-481 secp256k1_wnaf_fixed: the skew and the digits.  [fixed_bits] is
    the call of get_bits_var at lines 447 and 457, [fixed_max] the loop at 446-452 from
    position [pos] down, [fixed_loop] the loop at 456-478 from [pos] for [todo] positions
    over the digits so far, last first (only the last two are ever changed). *)
Definition fixed_bits (s : sc) (w pos : Z) : Z :=
  sc_get_bits_var s (pos * w) (if pos =? wnaf_size w - 1 then 128 - (wnaf_size w - 1) * w else w).
Fixpoint fixed_max (s : sc) (w : Z) (pos : nat) : nat :=
  match pos with
  | O => O
  | S pos' => if negb (fixed_bits s w (Z.of_nat pos) =? 0) then pos else fixed_max s w pos'
  end.
Fixpoint fixed_loop (s : sc) (w : Z) (todo : nat) (pos : Z) (digits : list Z) : list Z :=
  match todo with
  | O => digits
  | S todo' =>
    let val := fixed_bits s w pos in
    match digits with
    | [] => []
    | prev :: rest =>
      let '(cur, prev) := if (val &! 1) =? 0 then (val + 1, prev - 2 ^ w) else (val, prev) in
      let '(prev, rest) :=
        match rest with
        | prev2 :: rest' =>
          if (pos >=? 2) && (((prev =? 1) && (prev2 <? 0)) || ((prev =? -1) && (prev2 >? 0))) then
            (0, (if prev =? 1 then prev2 + 2 ^ w else prev2 - 2 ^ w) :: rest')
          else (prev, rest)
        | [] => (prev, rest)
        end in
      fixed_loop s w todo' (pos + 1) (cur :: prev :: rest)
    end
  end.
Definition wnaf_fixed (s : sc) (w : Z) : Z * list Z :=
  let size := Z.to_nat (wnaf_size w) in
  if sc_is_zero s then (0, repeat 0 size)
  else
    let skew := if sc_is_even s then 1 else 0 in
    let wnaf0 := sc_get_bits_var s 0 w + skew in
    let max_pos := fixed_max s w (size - 1) in
    (skew, rev (fixed_loop s w max_pos 1 [wnaf0]) ++ repeat 0 (size - 1 - max_pos)).

(** src/ecmult_impl.h:483-491: a point that counts, its skew and its digits (the index
    input_pos of the point is replaced by the point). *)
Record pip_entry : Type := mkpe { pe_pt : ge; pe_skew : Z; pe_wnaf : list Z }.
(** Adding to a bucket; [None] is an index outside the array. *)
Definition bucket_add (buckets : list gej) (idx : Z) (p : ge) : option (list gej) :=
  if (0 <=? idx) && (idx <? Z.of_nat (length buckets)) then
    Some (upd (Z.to_nat idx) (gej_add_ge_var (nth (Z.to_nat idx) buckets gej_infinity) p) buckets)
  else None.
(** src/ecmult_impl.h:500-575 secp256k1_ecmult_pippenger_wnaf.  [pip_select] is the first loop,
    [pip_fill] the loop at 528-550, [pip_sum] the one at 565-568 over the buckets from
    the last down to number 1, [pip_round] one iteration of the main loop for digit
    [i], [pip_loop] the main loop for the digits below [i]. *)
Fixpoint pip_select (bucket_window : Z) (l : list (sc * ge)) : list pip_entry :=
  match l with
  | [] => []
  | (s, p) :: l' =>
    if sc_is_zero s || ginf p then pip_select bucket_window l'
    else let (skew, wnaf) := wnaf_fixed s (bucket_window + 1) in mkpe p skew wnaf :: pip_select bucket_window l'
  end.
Definition pip_fill1 (i : nat) (e : pip_entry) (buckets : list gej) : option (list gej) :=
  let d := nth i (pe_wnaf e) 0 in
  let filled :=
    match i with
    | O => if negb (pe_skew e =? 0) then bucket_add buckets 0 (ge_neg (pe_pt e)) else Some buckets
    | S _ => Some buckets
    end in
  match filled with
  | None => None
  | Some buckets =>
    if d >? 0 then bucket_add buckets (Z.quot (d - 1) 2) (pe_pt e)
    else if d <? 0 then bucket_add buckets (Z.quot (- (d + 1)) 2) (ge_neg (pe_pt e))
    else Some buckets
  end.
Fixpoint pip_fill (i : nat) (es : list pip_entry) (buckets : list gej) : option (list gej) :=
  match es with
  | [] => Some buckets
  | e :: es' => match pip_fill1 i e buckets with Some buckets' => pip_fill i es' buckets' | None => None end
  end.
Fixpoint pip_sum (down : list gej) (running_sum r : gej) : gej * gej :=
  match down with
  | [] => (running_sum, r)
  | b :: down' =>
    let running_sum := gej_add_var running_sum b in
    pip_sum down' running_sum (gej_add_var r running_sum)
  end.
Definition pip_round (bucket_window : Z) (i : nat) (es : list pip_entry) (r : gej) : option gej :=
  match pip_fill i es (repeat gej_infinity (table_size (bucket_window + 2))) with
  | None => None
  | Some buckets =>
    let r := double_times (Z.to_nat bucket_window) r in
    let (running_sum, r) := pip_sum (rev (tl buckets)) gej_infinity r in
    let running_sum := gej_add_var running_sum (hd gej_infinity buckets) in
    let r := gej_double_var r in
    Some (gej_add_var r running_sum)
  end.
Fixpoint pip_loop (bucket_window : Z) (i : nat) (es : list pip_entry) (r : gej) : option gej :=
  match i with
  | O => Some r
  | S i' => match pip_round bucket_window i' es r with Some r' => pip_loop bucket_window i' es r' | None => None end
  end.
Definition ecmult_pippenger_wnaf (bucket_window : Z) (l : list (sc * ge)) : option gej :=
  match pip_select bucket_window l with
  | [] => Some gej_infinity
  | es => pip_loop bucket_window (Z.to_nat (wnaf_size (bucket_window + 1))) es gej_infinity
  end.

(** src/ecmult_impl.h:581-605 secp256k1_pippenger_bucket_window. *)
Definition pippenger_bucket_window (n : Z) : Z :=
  if n <=? 1 then 1 else if n <=? 4 then 2 else if n <=? 20 then 3 else if n <=? 57 then 4
  else if n <=? 136 then 5 else if n <=? 235 then 6 else if n <=? 1260 then 7 else if n <=? 4420 then 9
  else if n <=? 7880 then 10 else if n <=? 16050 then 11 else pippenger_max_bucket_window.
(** src/ecmult_impl.h:610-626 secp256k1_pippenger_bucket_window_inv. *)
Definition pippenger_bucket_window_inv (bucket_window : Z) : Z :=
  match bucket_window with
  | 1 => 1 | 2 => 4 | 3 => 20 | 4 => 57 | 5 => 136 | 6 => 235 | 7 => 1260 | 8 => 1260
  | 9 => 4420 | 10 => 7880 | 11 => 16050 | 12 => 2 ^ 64 - 1 | _ => 0
  end.
(** src/ecmult_impl.h:629-642 secp256k1_ecmult_endo_split: the two scalars and points. *)
Definition ecmult_endo_split (s1 : sc) (p1 : ge) : list (sc * ge) :=
  let (s1, s2) := sc_split_lambda s1 in
  let p2 := ge_mul_lambda p1 in
  [(if sc_is_high s1 then (sc_negate s1, ge_neg p1) else (s1, p1));
   (if sc_is_high s2 then (sc_negate s2, ge_neg p2) else (s2, p2))].

(** src/ecmult_impl.h:361-364 secp256k1_strauss_scratch_size. *)
Definition strauss_scratch_size (n_points : Z) : Z :=
  w64 (n_points * ((sizeof_ge + sizeof_fe) * Z.of_nat (table_size window_a) + sizeof_strauss_ps + sizeof_gej + sizeof_scalar)).
(** src/ecmult_impl.h:410-412 secp256k1_strauss_max_points. *)
Definition strauss_max_points (align : Z) (w : space) : Z :=
  snd (scratch_max_allocation align w strauss_scratch_objects) / strauss_scratch_size 1.
(** src/ecmult_impl.h:727-759 secp256k1_pippenger_max_points.  [max_points_loop] is the loop over
    the bucket windows, [todo] of them from [bucket_window]. *)
Definition pippenger_entry_size (bucket_window : Z) : Z :=
  2 * (sizeof_ge + sizeof_scalar + sizeof_pippenger_ps + (wnaf_size (bucket_window + 1) + 1) * sizeof_int).
Fixpoint max_points_loop (todo : nat) (bucket_window max_alloc res : Z) : Z :=
  match todo with
  | O => res
  | S todo' =>
    let max_points := pippenger_bucket_window_inv bucket_window in
    let entry_size := pippenger_entry_size bucket_window in
    let space_overhead := sizeof_gej * 2 ^ bucket_window + entry_size + sizeof_pippenger_state in
    if space_overhead >? max_alloc then res
    else
      let space_for_points := max_alloc - space_overhead in
      let n_points := space_for_points / entry_size in
      let n_points := if n_points >? max_points then max_points else n_points in
      let res := if n_points >? res then n_points else res in
      if n_points <? max_points then res else max_points_loop todo' (bucket_window + 1) max_alloc res
  end.
Definition pippenger_max_points (align : Z) (w : space) : Z :=
  max_points_loop (Z.to_nat pippenger_max_bucket_window) 1 (snd (scratch_max_allocation align w pippenger_scratch_objects)) 0.
(** src/ecmult_impl.h:788-804 secp256k1_ecmult_multi_batch_size_helper: number of batches and batch
    size, [None] for return value 0. *)
Definition batch_size_helper (max_n_batch_points n : Z) : option (Z * Z) :=
  if max_n_batch_points =? 0 then None
  else
    let max_n_batch_points := if max_n_batch_points >? max_points_per_batch then max_points_per_batch else max_n_batch_points in
    if n =? 0 then Some (0, 0)
    else
      let n_batches := ceil_div n max_n_batch_points in
      Some (n_batches, ceil_div n n_batches).

Section Callback.
Context {T : Type}.
Variable cb : T -> Z -> option (sc * ge) * T.

(** src/ecmult_impl.h:366-403 secp256k1_ecmult_strauss_batch; [strauss_ask] is the loop at
    392-399. *)
Fixpoint strauss_ask (todo : nat) (i cb_offset : Z) (st : T) : option (list (gej * sc)) * T :=
  match todo with
  | O => (Some [], st)
  | S todo' =>
    match cb st (w64 (i + cb_offset)) with
    | (None, st) => (None, st)
    | (Some (scalar, point), st) =>
      match strauss_ask todo' (i + 1) cb_offset st with
      | (None, st) => (None, st)
      | (Some l, st) => (Some ((gej_set_ge point, scalar) :: l), st)
      end
    end
  end.
Definition ecmult_strauss_batch (align : Z) (w : space) (inp_g_sc : option sc) (st : T) (n_points cb_offset : Z) : option (option gej * T * space) :=
  let checkpoint := snd (scratch_checkpoint w) in
  match inp_g_sc, n_points =? 0 with
  | None, true => Some (Some gej_infinity, st, w)
  | _, _ =>
    let ts := Z.of_nat (table_size window_a) in
    match allocs align w [w64 (n_points * sizeof_gej); w64 (n_points * sizeof_scalar); w64 (w64 (n_points * ts) * sizeof_fe);
                          w64 (w64 (n_points * ts) * sizeof_ge); w64 (n_points * sizeof_strauss_ps)] with
    | None => None
    | Some (ps, w) =>
      if some_null ps then Some (None, st, snd (scratch_apply_checkpoint w checkpoint))
      else
        match strauss_ask (Z.to_nat n_points) 0 cb_offset st with
        | (None, st) => Some (None, st, snd (scratch_apply_checkpoint w checkpoint))
        | (Some l, st) => Some (Some (ecmult_strauss_wnaf l inp_g_sc), st, snd (scratch_apply_checkpoint w checkpoint))
        end
    end
  end.

(** src/ecmult_impl.h:654-715 secp256k1_ecmult_pippenger_batch; [pippenger_ask] is the loop at
    701-710. *)
Fixpoint pippenger_ask (todo : nat) (point_idx cb_offset : Z) (st : T) : option (list (sc * ge)) * T :=
  match todo with
  | O => (Some [], st)
  | S todo' =>
    match cb st (w64 (point_idx + cb_offset)) with
    | (None, st) => (None, st)
    | (Some (scalar, point), st) =>
      match pippenger_ask todo' (point_idx + 1) cb_offset st with
      | (None, st) => (None, st)
      | (Some l, st) => (Some (ecmult_endo_split scalar point ++ l), st)
      end
    end
  end.
Definition ecmult_pippenger_batch (align : Z) (w : space) (inp_g_sc : option sc) (st : T) (n_points cb_offset : Z) : option (option gej * T * space) :=
  let checkpoint := snd (scratch_checkpoint w) in
  let entries := w64 (2 * n_points + 2) in
  match inp_g_sc, n_points =? 0 with
  | None, true => Some (Some gej_infinity, st, w)
  | _, _ =>
    let bucket_window := pippenger_bucket_window n_points in
    match allocs align w [w64 (entries * sizeof_ge); w64 (entries * sizeof_scalar); sizeof_pippenger_state] with
    | None => None
    | Some (ps, w) =>
      if some_null ps then Some (None, st, snd (scratch_apply_checkpoint w checkpoint))
      else
        match allocs align w [w64 (entries * sizeof_pippenger_ps); w64 (w64 (entries * wnaf_size (bucket_window + 1)) * sizeof_int);
                              w64 (2 ^ bucket_window * sizeof_gej)] with
        | None => None
        | Some (ps, w) =>
          if some_null ps then Some (None, st, snd (scratch_apply_checkpoint w checkpoint))
          else
            let first := match inp_g_sc with Some g => ecmult_endo_split g ge_const_g | None => [] end in
            match pippenger_ask (Z.to_nat n_points) 0 cb_offset st with
            | (None, st) => Some (None, st, snd (scratch_apply_checkpoint w checkpoint))
            | (Some l, st) =>
              match ecmult_pippenger_wnaf bucket_window (first ++ l) with
              | None => None
              | Some r => Some (Some r, st, snd (scratch_apply_checkpoint w checkpoint))
              end
            end
        end
    end
  end.

(** src/ecmult_impl.h:763-784 secp256k1_ecmult_multi_simple_var; [simple_loop] is its loop. *)
Fixpoint simple_loop (todo : nat) (point_idx : Z) (st : T) (r : gej) : option gej * T :=
  match todo with
  | O => (Some r, st)
  | S todo' =>
    match cb st point_idx with
    | (None, st) => (None, st)
    | (Some (scalar, point), st) => simple_loop todo' (point_idx + 1) st (gej_add_var r (ecmult (gej_set_ge point) scalar None))
    end
  end.
Definition multi_simple_var (inp_g_sc : option sc) (st : T) (n_points : Z) : option gej * T :=
  simple_loop (Z.to_nat n_points) 0 st (ecmult gej_infinity sc_zero inp_g_sc).

(** src/ecmult_impl.h:807-851 secp256k1_ecmult_multi_var; [multi_loop] is the loop at 840-849 with
    batch function [f], [todo] batches from number [i] with [n] points left. *)
Fixpoint multi_loop (f : space -> option sc -> T -> Z -> Z -> option (option gej * T * space)) (inp_g_sc : option sc) (n_batch_points : Z)
  (todo : nat) (i n : Z) (w : space) (st : T) (r : gej) : option (option gej * T * space) :=
  match todo with
  | O => Some (Some r, st, w)
  | S todo' =>
    let nbp := if n <? n_batch_points then n else n_batch_points in
    let offset := w64 (n_batch_points * i) in
    match f w (if i =? 0 then inp_g_sc else None) st nbp offset with
    | None => None
    | Some (None, st, w) => Some (None, st, w)
    | Some (Some tmp, st, w) => multi_loop f inp_g_sc n_batch_points todo' (i + 1) (n - nbp) w st (gej_add_var r tmp)
    end
  end.
Definition ecmult_multi_var (align : Z) (scratch : option space) (inp_g_sc : option sc) (st : T) (n : Z) : option (option gej * T * option space) :=
  let simple := Some (multi_simple_var inp_g_sc st n, scratch) in
  if n =? 0 then
    match inp_g_sc with
    | None => Some (Some gej_infinity, st, scratch)
    | Some _ => Some (Some (ecmult gej_infinity sc_zero inp_g_sc), st, scratch)
    end
  else
    match scratch with
    | None => simple
    | Some w =>
      match batch_size_helper (pippenger_max_points align w) n with
      | None => simple
      | Some (n_batches, n_batch_points) =>
        let chosen :=
          if n_batch_points >=? pippenger_threshold then Some (ecmult_pippenger_batch align, n_batches, n_batch_points)
          else
            match batch_size_helper (strauss_max_points align w) n with
            | None => None
            | Some (n_batches, n_batch_points) => Some (ecmult_strauss_batch align, n_batches, n_batch_points)
            end in
        match chosen with
        | None => simple
        | Some (f, n_batches, n_batch_points) =>
          match multi_loop f inp_g_sc n_batch_points (Z.to_nat n_batches) 0 n w st gej_infinity with
          | None => None
          | Some (r, st, w) => Some (r, st, Some w)
          end
        end
      end
    end.
End Callback.
