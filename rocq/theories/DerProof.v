(** DER parsing and serialization of signatures. *)
Require Import ZArith List Bool Lia.
From Verif Require Import Word Bytes Spec SpecApi SpecDer ScalarModel ScalarProof ScalarProof2 HashModel HashProof EcdsaModel ApiModel ApiProof EcdsaProof.
Import ListNotations.
Local Open Scope Z_scope.
Local Open Scope c_scope.
Local Opaque n.

Notation len l := (Z.of_nat (length l)).

(** ** Reads relative to a prefix *)
Lemma rd_app pre rest i : (i < length rest)%nat -> rd (pre ++ rest) (len pre + Z.of_nat i) = Some (nth i rest 0).
Proof.
  intro H. unfold rd. rewrite app_length.
  replace ((0 <=? len pre + Z.of_nat i) && (len pre + Z.of_nat i <? Z.of_nat (length pre + length rest))) with true
    by (symmetry; apply andb_true_intro; split; [apply Z.leb_le|apply Z.ltb_lt]; lia).
  f_equal. rewrite app_nth2 by lia. f_equal. lia.
Qed.
Lemma rd_app0 pre b rest : rd (pre ++ b :: rest) (len pre) = Some b.
Proof. rewrite <- (Z.add_0_r (len pre)). change 0 with (Z.of_nat 0). rewrite rd_app by (cbn; lia). reflexivity. Qed.
Lemma rd_n_app pre rest k : (k <= length rest)%nat -> rd_n (pre ++ rest) (len pre) (Z.of_nat k) = Some (firstn k rest).
Proof.
  intro H. unfold rd_n. rewrite app_length.
  replace ((0 <=? len pre) && (0 <=? Z.of_nat k) && (len pre + Z.of_nat k <=? Z.of_nat (length pre + length rest))) with true
    by (symmetry; apply andb_true_intro; split; [apply andb_true_intro; split|]; apply Z.leb_le; lia).
  rewrite !Nat2Z.id. f_equal. rewrite skipn_app, skipn_all, Nat.sub_diag. reflexivity.
Qed.
Lemma cons_app {A} (pre : list A) b rest : pre ++ b :: rest = (pre ++ [b]) ++ rest.
Proof. now rewrite <- app_assoc. Qed.
Lemma len_snoc (pre : list Z) b : len pre + 1 = len (pre ++ [b]).
Proof. rewrite app_length. cbn [length]. lia. Qed.

(** ** Facts about bytes, by enumeration *)
Lemma byte_enum (f : Z -> bool) : forallb f (map Z.of_nat (seq 0 256)) = true -> forall b, 0 <= b < 256 -> f b = true.
Proof.
  intros H b B. rewrite forallb_forall in H. apply H. apply in_map_iff. exists (Z.to_nat b). split; [lia|]. apply in_seq. lia.
Qed.
Lemma land80 b : 0 <= b < 256 -> ((b &! 0x80) =? 0) = (b <? 128) /\ ((b &! 0x80) =? 0x80) = negb (b <? 128).
Proof.
  intro B. split; apply eqb_prop.
  - exact (byte_enum (fun b => eqb ((b &! 0x80) =? 0) (b <? 128)) eq_refl b B).
  - exact (byte_enum (fun b => eqb ((b &! 0x80) =? 0x80) (negb (b <? 128))) eq_refl b B).
Qed.
Lemma land7F b : 0 <= b < 256 -> 128 <= b -> (b &! 0x7F) = b - 128.
Proof.
  intros B L. apply Z.eqb_eq. pose proof (byte_enum (fun b => (b <? 128) || ((b &! 0x7F) =? b - 128)) eq_refl b B) as H. cbv beta in H.
  apply orb_prop in H as [H|H]; [apply Z.ltb_lt in H; lia|exact H].
Qed.

(** ** The length octets *)
Lemma der_len_loop_ok ds : forall pre rest acc, byte_list ds -> 0 <= acc -> acc * 256 ^ len ds + be_val ds < 2 ^ 64 ->
  der_len_loop (length ds) (pre ++ ds ++ rest) acc (len pre) = Some (acc * 256 ^ len ds + be_val ds, len pre + len ds).
Proof.
  induction ds as [|d ds IH]; intros pre rest acc B A L.
  - cbn [length der_len_loop app Z.of_nat]. rewrite be_val_nil, Z.pow_0_r. f_equal. f_equal; lia.
  - apply byte_list_cons in B as [B1 B2]. cbn [length der_len_loop app].
    rewrite rd_app0. pose proof (be_val_range ds B2) as R.
    assert (P : 0 < 256 ^ len ds) by (apply Z.pow_pos_nonneg; lia).
    rewrite be_val_cons in *. cbn [length] in *. rewrite Nat2Z.inj_succ, Z.pow_succ_r in * by lia.
    assert (AB : acc * 256 + d < 2 ^ 64) by nia.
    assert (E : Z.lor (w64 (Z.shiftl acc 8)) d = acc * 256 + d).
    { rewrite Z.shiftl_mul_pow2 by lia. change (2 ^ 8) with 256. rewrite w64_id by lia.
      change 256 with (2 ^ 8) at 1. rewrite lor_disjoint' by lia. lia. }
    rewrite E. rewrite cons_app, (len_snoc pre d). rewrite (IH (pre ++ [d]) rest (acc * 256 + d)) by (try assumption; nia).
    f_equal. f_equal; [ring|]. rewrite app_length. cbn [length]. lia.
Qed.

Definition rl_spec (base : Z) (rest : list Z) : outcome (Z * Z) :=
  match rest with
  | [] => Ret0
  | b :: r =>
    if b <? 128 then Ret1 (b, base + 1)
    else if (b =? 128) || (b =? 255) || (len r <? b - 128) || (nth 0 r 0 =? 0) || (8 <? b - 128) then Ret0
    else let v := be_val (firstn (Z.to_nat (b - 128)) r) in
      if (len r - (b - 128) <? v) || (v <? 128) then Ret0 else Ret1 (v, base + 1 + (b - 128))
  end.
Lemma gtb_ltb a b : (a >? b) = (b <? a). Proof. apply Z.gtb_ltb. Qed.
Lemma pow256_8 k : 0 <= k <= 8 -> 256 ^ k <= 2 ^ 64.
Proof. intro H. change (2 ^ 64) with (256 ^ 8). apply Z.pow_le_mono_r; lia. Qed.
Lemma read_len_eq pre rest : byte_list rest -> der_read_len (pre ++ rest) (len pre) = rl_spec (len pre) rest.
Proof.
  intro B. unfold der_read_len, rl_spec. rewrite app_length, Nat2Z.inj_add, Z.geb_leb.
  destruct rest as [|b r].
  - cbn [length Z.of_nat]. replace (len pre + 0 <=? len pre) with true by (symmetry; apply Z.leb_le; lia). reflexivity.
  - cbn [length]. replace (len pre + Z.of_nat (S (length r)) <=? len pre) with false by (symmetry; apply Z.leb_gt; lia).
    rewrite rd_app0. apply byte_list_cons in B as [B1 B2]. destruct (land80 b B1) as [E1 E2]. rewrite E1.
    destruct (b <? 128) eqn:Q0; [replace (b =? 255) with false by (symmetry; apply Z.eqb_neq; apply Z.ltb_lt in Q0; lia); reflexivity|].
    apply Z.ltb_ge in Q0. rewrite land7F by assumption.
    destruct (b =? 255) eqn:S1; [rewrite orb_true_r; reflexivity|]. destruct (b =? 128) eqn:S2; [reflexivity|]. cbn [orb].
    apply Z.eqb_neq in S1, S2. rewrite !gtb_ltb.
    replace (len pre + Z.of_nat (S (length r)) - (len pre + 1)) with (len r) by lia.
    destruct (len r <? b - 128) eqn:S3; [reflexivity|]. apply Z.ltb_ge in S3. cbn [orb].
    destruct r as [|d r]; [cbn in S3; lia|]. set (dr := d :: r) in *.
    replace (rd (pre ++ b :: dr) (len pre + 1)) with (Some d) by (rewrite (len_snoc pre b), cons_app; symmetry; apply rd_app0).
    change (nth 0 dr 0) with d. destruct (d =? 0) eqn:S4; [reflexivity|]. cbn [orb]. destruct (8 <? b - 128) eqn:S5; [reflexivity|].
    apply Z.ltb_ge in S5. set (k := Z.to_nat (b - 128)) in *.
    assert (KL : length (firstn k dr) = k) by (apply firstn_length_le; unfold k; lia).
    assert (BD : byte_list (firstn k dr)) by now apply byte_list_firstn.
    pose proof (be_val_range _ BD) as R. rewrite KL in R. assert (P : 256 ^ Z.of_nat k <= 2 ^ 64) by (apply pow256_8; unfold k; lia).
    replace (der_len_loop k (pre ++ b :: dr) 0 (len pre + 1)) with (Some (be_val (firstn k dr), len pre + 1 + Z.of_nat k)).
    2: { pose proof (der_len_loop_ok (firstn k dr) (pre ++ [b]) (skipn k dr) 0 BD (Z.le_refl 0) ltac:(lia)) as T. rewrite firstn_skipn, KL in T.
         rewrite (len_snoc pre b), (cons_app pre b dr), T. f_equal. }
    cbv zeta. replace (Z.of_nat k) with (b - 128) by (unfold k; lia).
    replace (len pre + Z.of_nat (S (length dr)) - (len pre + 1 + (b - 128))) with (len dr - (b - 128)) by lia.
    fold k. rewrite gtb_ltb. destruct (len dr - (b - 128) <? be_val (firstn k dr)); cbn [orb]; destruct (be_val (firstn k dr) <? 128); reflexivity.
Qed.

Lemma rl_noub base rest : rl_spec base rest <> Ub.
Proof.
  unfold rl_spec. destruct rest as [|b r]; [discriminate|]. destruct (b <? 128); [discriminate|]. destruct (_ || _); [discriminate|]. cbv zeta. destruct (_ || _); discriminate.
Qed.
Lemma rl_bwd base rest k pos : byte_list rest -> rl_spec base rest = Ret1 (k, pos) ->
  exists enc rest', rest = enc ++ rest' /\ der_length enc k /\ pos = base + len enc /\ (128 <= k -> k <= len rest').
Proof.
  intros B H. unfold rl_spec in H. destruct rest as [|b r]; [discriminate|]. apply byte_list_cons in B as [B1 B2].
  destruct (b <? 128) eqn:Q0.
  - apply Z.ltb_lt in Q0. injection H as <- <-. exists [b], r. split; [reflexivity|]. split; [left; split; [lia|reflexivity]|]. split; [cbn; lia|lia].
  - apply Z.ltb_ge in Q0. destruct (_ || _) eqn:S1 in H; [discriminate|].
    apply orb_false_elim in S1 as [S1 S2]. apply orb_false_elim in S1 as [S1 S3]. apply orb_false_elim in S1 as [S1 S4]. apply orb_false_elim in S1 as [S1 S5].
    apply Z.eqb_neq in S1, S3, S5. apply Z.ltb_ge in S2, S4. cbv zeta in H. destruct (_ || _) eqn:S6 in H; [discriminate|].
    apply orb_false_elim in S6 as [S6 S7]. apply Z.ltb_ge in S6, S7. injection H as <- <-.
    set (j := Z.to_nat (b - 128)) in *. destruct r as [|d r]; [cbn in S3; lia|]. cbn [nth] in S3.
    assert (J : exists j', j = S j') by (exists (pred j); unfold j; lia). destruct J as (j' & J).
    assert (L : length (firstn j (d :: r)) = j) by (apply firstn_length_le; unfold j; lia).
    exists (b :: firstn j (d :: r)), (skipn j (d :: r)). split; [cbn [app]; now rewrite firstn_skipn|]. split; [|split].
    + right. split; [exact S7|]. exists d, (firstn j' r). assert (EQ : firstn j (d :: r) = d :: firstn j' r) by (rewrite J; reflexivity).
      rewrite <- EQ. split; [exact S3|]. split; [now apply byte_list_firstn|]. split; [reflexivity|]. rewrite L. split; [unfold j; lia|]. f_equal. unfold j. lia.
    + cbn [length]. rewrite L. unfold j. lia.
    + intros _. rewrite skipn_length. assert (EJ : Z.of_nat j = b - 128) by (unfold j; lia). lia.
Qed.
Lemma rl_fwd base enc rest k : der_length enc k -> (128 <= k -> k <= len rest) -> len rest < 2 ^ 64 ->
  rl_spec base (enc ++ rest) = Ret1 (k, base + len enc).
Proof.
  intros [[K E]|(K & d & ds & D0 & B & V & L & E)] F Q0.
  - subst enc. cbn [app rl_spec]. replace (k <? 128) with true by (symmetry; apply Z.ltb_lt; lia). reflexivity.
  - subst enc. set (dd := d :: ds) in *. cbn [app rl_spec]. set (b := 128 + len dd) in *.
    assert (Ldd : 1 <= len dd) by (unfold dd; cbn [length]; lia).
    assert (L8 : len dd <= 8).
    { destruct (Z_le_gt_dec (len dd) 8) as [|G]; [assumption|exfalso]. specialize (F K).
      apply byte_list_cons in B as [Bd Bs]. pose proof (be_val_range ds Bs) as R. unfold dd in V. rewrite be_val_cons in V.
      assert (256 ^ 8 <= 256 ^ len ds) by (apply Z.pow_le_mono_r; [lia|]; unfold dd in G; cbn [length] in G; lia).
      change (256 ^ 8) with (2 ^ 64) in *. nia. }
    replace (b <? 128) with false by (symmetry; apply Z.ltb_ge; unfold b; lia).
    replace (b =? 128) with false by (symmetry; apply Z.eqb_neq; unfold b; lia).
    replace (b =? 255) with false by (symmetry; apply Z.eqb_neq; unfold b; lia).
    replace (b - 128) with (len dd) by (unfold b; lia).
    replace (len (dd ++ rest) <? len dd) with false by (symmetry; apply Z.ltb_ge; rewrite app_length; lia).
    replace (nth 0 (dd ++ rest) 0 =? 0) with false by (symmetry; apply Z.eqb_neq; exact D0).
    replace (8 <? len dd) with false by (symmetry; apply Z.ltb_ge; lia). cbn [orb]. cbv zeta. rewrite Nat2Z.id.
    rewrite firstn_app, firstn_all, Nat.sub_diag. cbn [firstn]. rewrite app_nil_r, V, app_length.
    replace (Z.of_nat (length dd + length rest) - len dd <? k) with false by (symmetry; apply Z.ltb_ge; specialize (F K); lia).
    replace (k <? 128) with false by (symmetry; apply Z.ltb_ge; lia). cbn [orb]. f_equal. f_equal. cbn [length]. lia.
Qed.

(** ** Integers *)
Definition int_body (buf : list Z) (rlen pos : Z) : outcome (sc * Z) :=
  let sigend := len buf in
  if (rlen =? 0) || (rlen >? sigend - pos) then Ret0 else
  match rd buf pos, (if rlen >? 1 then rd buf (pos + 1) else Some 0) with
  | None, _ | _, None => Ub
  | Some b0, Some b1 =>
    if (b0 =? 0x00) && (rlen >? 1) && ((b1 &! 0x80) =? 0x00) then Ret0
    else if (b0 =? 0xFF) && (rlen >? 1) && ((b1 &! 0x80) =? 0x80) then Ret0
    else
      let overflow := (b0 &! 0x80) =? 0x80 in
      let (rlen, pos) := if b0 =? 0 then (rlen - 1, pos + 1) else (rlen, pos) in
      let overflow := overflow || (rlen >? 32) in
      match (if overflow then Some (mksc 0 0 0 0, true)
             else match rd_n buf pos rlen with
                  | None => None
                  | Some data => Some (sc_set_b32 (repeat 0 (32 - Z.to_nat rlen) ++ data))
                  end) with
      | None => Ub
      | Some (r, overflow) => Ret1 (if overflow then sc_set_int 0 else r, pos + rlen)
      end
  end.
Lemma parse_integer_eq buf pos : der_parse_integer buf pos =
  if pos =? len buf then Ret0 else
  match rd buf pos with
  | None => Ub
  | Some tag => if negb (tag =? 0x02) then Ret0 else
    match der_read_len buf (pos + 1) with Ub => Ub | Ret0 => Ret0 | Ret1 (rlen, pos) => int_body buf rlen pos end
  end.
Proof. reflexivity. Qed.

Definition bad_int (c : list Z) : bool :=
  match c with b0 :: b1 :: _ => ((b0 =? 0) && (b1 <? 128)) || ((b0 =? 255) && negb (b1 <? 128)) | _ => false end.
Lemma contents_iff c : der_int_contents c <-> byte_list c /\ c <> [] /\ bad_int c = false.
Proof.
  unfold der_int_contents. split.
  - intros (A & B & C & D). split; [exact A|split; [exact B|]]. destruct c as [|b0 [|b1 c]]; try reflexivity. cbn [bad_int].
    destruct (C b1 c) as [E|E]; destruct (D b1 c) as [F|F].
    + replace (b0 =? 0) with false by (symmetry; apply Z.eqb_neq; intros ->; now apply E). replace (b0 =? 255) with false by (symmetry; apply Z.eqb_neq; intros ->; now apply F). reflexivity.
    + replace (b0 =? 0) with false by (symmetry; apply Z.eqb_neq; intros ->; now apply E). apply Z.ltb_lt in F. rewrite F. cbn. now rewrite andb_false_r.
    + replace (b0 =? 255) with false by (symmetry; apply Z.eqb_neq; intros ->; now apply F). apply Z.ltb_ge in E. rewrite E. cbn. now rewrite andb_false_r.
    + lia.
  - intros (A & B & C). split; [exact A|split; [exact B|]]. split; intros b1 c'; (destruct c as [|b0 [|b c]]; [left; discriminate|left; discriminate|]); cbn [bad_int] in C; apply orb_false_elim in C as [C1 C2].
    + destruct (b <? 128) eqn:E.
      * left. intros H. injection H as -> -> ->. discriminate.
      * apply Z.ltb_ge in E. destruct (Z.eq_dec b b1) as [->|N]; [right; exact E|left; congruence].
    + destruct (b <? 128) eqn:E.
      * apply Z.ltb_lt in E. destruct (Z.eq_dec b b1) as [->|N]; [right; exact E|left; congruence].
      * left. intros H. injection H as -> -> ->. discriminate.
Qed.
Lemma n_lt_256 : n <= 256 ^ 32 /\ 0 < n /\ n < 128 * 256 ^ 32. Proof. Transparent n. repeat split; (discriminate || reflexivity). Qed.
Opaque n.
Lemma be_val_zeros k l : be_val (repeat 0 k ++ l) = be_val l.
Proof. induction k; [reflexivity|]. cbn [repeat app]. rewrite be_val_cons, IHk. ring. Qed.
Lemma set_b32_pad t : byte_list t -> (length t <= 32)%nat ->
  sc_ok (fst (sc_set_b32 (repeat 0 (32 - length t) ++ t))) /\
  (if snd (sc_set_b32 (repeat 0 (32 - length t) ++ t)) then n <= be_val t else be_val t < n /\ sv (fst (sc_set_b32 (repeat 0 (32 - length t) ++ t))) = be_val t).
Proof.
  intros B L. destruct (sc_set_b32_ok (repeat 0 (32 - length t) ++ t)) as (A & E & O).
  - apply byte_list_app. split; [apply byte_list_repeat; lia|exact B].
  - rewrite app_length, repeat_length. lia.
  - rewrite be_val_zeros in E, O. split; [exact A|]. rewrite O. pose proof (be_val_range t B). destruct (n <=? be_val t) eqn:Q; [now apply Z.leb_le|].
    apply Z.leb_gt in Q. split; [exact Q|]. rewrite E. apply Z.mod_small. lia.
Qed.
Lemma zero_ok : sc_ok (sc_set_int 0) /\ sv (sc_set_int 0) = 0.
Proof. apply (sc_set_int_ok 0). lia. Qed.
(** The value assigned to the digits [t] (without the sign octet). *)
Lemma int_tail pre t rest (v : Z) : byte_list t -> v = be_val t -> ((32 < length t)%nat -> n <= v) ->
  exists r, match (if (len t >? 32) then Some (mksc 0 0 0 0, true)
         else match rd_n (pre ++ t ++ rest) (len pre) (len t) with
              | None => None
              | Some data => Some (sc_set_b32 (repeat 0 (32 - Z.to_nat (len t)) ++ data))
              end) with
  | None => Ub
  | Some (r, overflow) => Ret1 (if overflow then sc_set_int 0 else r, len pre + len t)
  end = Ret1 (r, len pre + len t) /\ sc_ok r /\ sv r = if (0 <=? v) && (v <? n) then v else 0.
Proof.
  intros B V L. destruct zero_ok as (Z1 & Z2). pose proof (be_val_range t B) as R. replace (0 <=? v) with true by (symmetry; apply Z.leb_le; lia). cbn [andb].
  rewrite gtb_ltb. destruct (32 <? len t) eqn:E.
  - apply Z.ltb_lt in E. exists (sc_set_int 0). split; [reflexivity|split; [exact Z1|]]. rewrite Z2. replace (v <? n) with false by (symmetry; apply Z.ltb_ge; apply L; lia). reflexivity.
  - apply Z.ltb_ge in E. rewrite rd_n_app by (rewrite app_length; lia). rewrite firstn_app, firstn_all, Nat.sub_diag. cbn [firstn]. rewrite app_nil_r, Nat2Z.id.
    destruct (set_b32_pad t B ltac:(lia)) as (A & C). destruct (sc_set_b32 _) as [r o]. cbn [fst snd] in *. destruct o.
    + exists (sc_set_int 0). split; [reflexivity|split; [exact Z1|]]. rewrite Z2, V. replace (be_val t <? n) with false by (symmetry; apply Z.ltb_ge; exact C). reflexivity.
    + destruct C as (C1 & C2). exists r. split; [reflexivity|split; [exact A|]]. rewrite C2, V. replace (be_val t <? n) with true by (symmetry; apply Z.ltb_lt; exact C1). reflexivity.
Qed.

Lemma int_body_ok pre c rest : byte_list c -> c <> [] ->
  if bad_int c then int_body (pre ++ c ++ rest) (len c) (len pre) = Ret0
  else exists r, int_body (pre ++ c ++ rest) (len c) (len pre) = Ret1 (r, len pre + len c) /\ sc_ok r /\ sv r = der_scalar c.
Proof.
  intros B NE. unfold int_body. rewrite !app_length, !Nat2Z.inj_add.
  destruct c as [|b0 t]; [contradiction|]. apply byte_list_cons in B as [B0 Bt].
  replace (len (b0 :: t) =? 0) with false by (symmetry; apply Z.eqb_neq; cbn [length]; lia).
  rewrite gtb_ltb. replace (len pre + (len (b0 :: t) + len rest) - len pre <? len (b0 :: t)) with false by (symmetry; apply Z.ltb_ge; lia). cbn [orb].
  change ((b0 :: t) ++ rest) with (b0 :: t ++ rest). rewrite rd_app0.
  set (b1 := nth 0 t 0).
  assert (H1 : (if len (b0 :: t) >? 1 then rd (pre ++ b0 :: t ++ rest) (len pre + 1) else Some 0) = Some b1).
  { rewrite gtb_ltb. destruct t as [|b t]; [reflexivity|]. replace (1 <? len (b0 :: b :: t)) with true by (symmetry; apply Z.ltb_lt; cbn [length]; lia).
    rewrite (len_snoc pre b0), (cons_app pre b0). apply rd_app0. }
  rewrite H1. clear H1.
  assert (HB : bad_int (b0 :: t) = (1 <? len (b0 :: t)) && (((b0 =? 0) && (b1 <? 128)) || ((b0 =? 255) && negb (b1 <? 128)))).
  { destruct t as [|b t]; [reflexivity|]. replace (1 <? len (b0 :: b :: t)) with true by (symmetry; apply Z.ltb_lt; cbn [length]; lia). reflexivity. }
  assert (B1 : 0 <= b1 < 256) by (unfold b1; now apply byte_list_nth).
  destruct (land80 b1 B1) as [L1 L2]. rewrite L1, L2, gtb_ltb. destruct (land80 b0 B0) as [_ L3]. rewrite L3.
  destruct ((b0 =? 0) && (1 <? len (b0 :: t)) && (b1 <? 128)) eqn:Q1.
  { replace (bad_int (b0 :: t)) with true; [reflexivity|]. rewrite HB. apply andb_prop in Q1 as [Q1 Q2]. apply andb_prop in Q1 as [Q1 Q3]. rewrite Q1, Q2, Q3. reflexivity. }
  destruct ((b0 =? 255) && (1 <? len (b0 :: t)) && negb (b1 <? 128)) eqn:Q2.
  { replace (bad_int (b0 :: t)) with true; [reflexivity|]. rewrite HB. apply andb_prop in Q2 as [Q2 Q4]. apply andb_prop in Q2 as [Q2 Q3]. rewrite Q2, Q3, Q4. rewrite andb_true_l, orb_true_r. reflexivity. }
  replace (bad_int (b0 :: t)) with false.
  2: { rewrite HB. destruct (1 <? len (b0 :: t)); [|reflexivity]. rewrite !andb_true_r in Q1, Q2. rewrite Q1, Q2. reflexivity. }
  destruct n_lt_256 as (N1 & N2 & N3).
  destruct (b0 =? 0) eqn:Q3.
  - apply Z.eqb_eq in Q3. subst b0. replace (len (0 :: t) - 1) with (len t) by (cbn [length]; lia).
    rewrite (len_snoc pre 0), (cons_app pre 0 (t ++ rest)). cbn [Z.ltb Z.compare negb orb].
    destruct (int_tail (pre ++ [0]) t rest (be_val t) Bt eq_refl) as (r & E & OK & V).
    { intro L. destruct t as [|b t]; [cbn in L; lia|]. cbn [nth] in b1. subst b1.
      replace (1 <? len (0 :: b :: t)) with true in Q1 by (symmetry; apply Z.ltb_lt; cbn [length]; lia). cbn [Z.eqb andb] in Q1. apply Z.ltb_ge in Q1.
      rewrite be_val_cons. apply byte_list_cons in Bt as [_ Bt]. pose proof (be_val_range t Bt).
      assert (256 ^ 32 <= 256 ^ len t) by (apply Z.pow_le_mono_r; cbn [length] in L; lia). nia. }
    exists r. split; [|split; [exact OK|]].
    + etransitivity; [exact E|]. f_equal. f_equal. rewrite app_length. cbn [length]. lia.
    + rewrite V. unfold der_scalar, der_int_value. cbn [Z.ltb Z.compare]. rewrite be_val_cons. replace (0 * 256 ^ len t + be_val t) with (be_val t) by ring. reflexivity.
  - destruct (b0 <? 128) eqn:Q4.
    + cbn [negb orb]. destruct (int_tail pre (b0 :: t) rest (be_val (b0 :: t))) as (r & E & OK & V).
      * apply byte_list_cons. tauto.
      * reflexivity.
      * intro L. rewrite be_val_cons. pose proof (be_val_range t Bt). apply Z.eqb_neq in Q3.
        assert (256 ^ 32 <= 256 ^ len t) by (apply Z.pow_le_mono_r; cbn [length] in L; lia). nia.
      * exists r. split; [exact E|split; [exact OK|]]. rewrite V. unfold der_scalar, der_int_value. rewrite Q4. reflexivity.
    + cbn [negb orb]. destruct zero_ok as (Z1 & Z2). exists (sc_set_int 0). split; [reflexivity|split; [exact Z1|]]. rewrite Z2.
      unfold der_scalar, der_int_value. rewrite Q4. assert (BB : byte_list (b0 :: t)) by (apply byte_list_cons; tauto). pose proof (be_val_range _ BB).
      replace (0 <=? be_val (b0 :: t) - 256 ^ len (b0 :: t)) with false by (symmetry; apply Z.leb_gt; lia). reflexivity.
Qed.

Lemma int_fwd pre enc c rest : byte_list (enc ++ c ++ rest) -> len (c ++ rest) < 2 ^ 64 -> der_length enc (len c) -> der_int_contents c ->
  exists r, der_parse_integer (pre ++ 2 :: enc ++ c ++ rest) (len pre) = Ret1 (r, len (pre ++ 2 :: enc ++ c)) /\ sc_ok r /\ sv r = der_scalar c.
Proof.
  intros B L D C. apply contents_iff in C as (C1 & C2 & C3). rewrite parse_integer_eq.
  replace (len pre =? len (pre ++ 2 :: enc ++ c ++ rest)) with false by (symmetry; apply Z.eqb_neq; rewrite app_length; cbn [length]; lia).
  rewrite rd_app0. cbn [Z.eqb Pos.eqb negb]. rewrite (len_snoc pre 2), (cons_app pre 2 (enc ++ c ++ rest)). rewrite read_len_eq by exact B.
  rewrite (rl_fwd _ enc (c ++ rest) (len c) D); [|rewrite app_length; lia|exact L].
  pose proof (int_body_ok ((pre ++ [2]) ++ enc) c rest C1 C2) as T. rewrite C3 in T. destruct T as (r & E & OK & V).
  exists r. split; [|split; assumption]. rewrite <- app_assoc in E.
  replace (len (pre ++ [2]) + len enc) with (len ((pre ++ [2]) ++ enc)) by (rewrite !app_length; lia).
  rewrite E. f_equal. f_equal. rewrite !app_length. cbn [length]. rewrite app_length. lia.
Qed.
Lemma app_split (l : list Z) (k : Z) : 0 <= k <= len l -> exists a b, l = a ++ b /\ len a = k.
Proof. intro H. exists (firstn (Z.to_nat k) l), (skipn (Z.to_nat k) l). split; [now rewrite firstn_skipn|]. rewrite firstn_length_le; lia. Qed.
Lemma der_length_nonneg enc k : der_length enc k -> 0 <= k. Proof. intros [[K _]|[K _]]; lia. Qed.
Lemma int_bwd pre rest : byte_list rest -> len (pre ++ rest) < 2 ^ 64 ->
  der_parse_integer (pre ++ rest) (len pre) <> Ub /\
  forall r pos, der_parse_integer (pre ++ rest) (len pre) = Ret1 (r, pos) ->
  exists enc c rest', rest = 2 :: enc ++ c ++ rest' /\ der_length enc (len c) /\ der_int_contents c /\ pos = len (pre ++ 2 :: enc ++ c).
Proof.
  intros B L. rewrite parse_integer_eq. destruct rest as [|tag rest].
  { rewrite app_nil_r, Z.eqb_refl. split; discriminate. }
  replace (len pre =? len (pre ++ tag :: rest)) with false by (symmetry; apply Z.eqb_neq; rewrite app_length; cbn [length]; lia).
  rewrite rd_app0. apply byte_list_cons in B as [_ B]. destruct (tag =? 2) eqn:Q; cbn [negb]; [|split; discriminate]. apply Z.eqb_eq in Q. subst tag.
  rewrite (len_snoc pre 2), (cons_app pre 2 rest). rewrite read_len_eq by exact B.
  pose proof (rl_noub (len (pre ++ [2])) rest) as NU. destruct (rl_spec (len (pre ++ [2])) rest) as [| |[k pos']] eqn:E; [contradiction|split; discriminate|]. clear NU.
  destruct (rl_bwd _ _ _ _ B E) as (enc & rest1 & E1 & D & E2 & _). subst rest pos'. apply byte_list_app in B as [_ B].
  replace (len (pre ++ [2]) + len enc) with (len ((pre ++ [2]) ++ enc)) by (rewrite !app_length; lia). rewrite (app_assoc (pre ++ [2])).
  destruct (Z.eq_dec k 0) as [->|K0]; [unfold int_body; cbn [Z.eqb orb]; split; discriminate|].
  pose proof (der_length_nonneg _ _ D) as KN.
  destruct (Z_lt_le_dec (len rest1) k) as [K1|K1].
  { unfold int_body. rewrite gtb_ltb. replace (len (((pre ++ [2]) ++ enc) ++ rest1) - len ((pre ++ [2]) ++ enc) <? k) with true by (symmetry; apply Z.ltb_lt; rewrite !app_length; lia).
    rewrite orb_true_r. split; discriminate. }
  destruct (app_split rest1 k ltac:(lia)) as (c & rest' & -> & LC). apply byte_list_app in B as [B1 B2].
  assert (CN : c <> []) by (intros ->; cbn in LC; lia).
  pose proof (int_body_ok ((pre ++ [2]) ++ enc) c rest' B1 CN) as T. rewrite LC in T. destruct (bad_int c) eqn:QB.
  - rewrite T. split; discriminate.
  - destruct T as (r & E' & _). rewrite E'. split; [discriminate|]. intros r0 pos H. injection H as <- <-.
    exists enc, c, rest'. split; [reflexivity|]. split; [rewrite LC; exact D|]. split; [apply contents_iff; tauto|].
    rewrite !app_length. cbn [length]. rewrite app_length. lia.
Qed.

Lemma sig_parse_fwd cr cs input : byte_list input -> len input < 2 ^ 64 -> der_signature cr cs input ->
  exists r s, ecdsa_sig_parse input = Ret1 (r, s) /\ sc_ok r /\ sc_ok s /\ sv r = der_scalar cr /\ sv s = der_scalar cs.
Proof.
  intros B L (CR & CS & er & es & (l1 & D1 & ->) & (l2 & D2 & ->) & (l & D & ->)). unfold ecdsa_sig_parse.
  apply byte_list_cons in B as [_ B]. set (body := (2 :: l1 ++ cr) ++ 2 :: l2 ++ cs) in *.
  assert (LB : len body < 2 ^ 64) by (cbn [length] in L; rewrite app_length in L; lia).
  replace (0 =? len (48 :: l ++ body)) with false by (symmetry; apply Z.eqb_neq; cbn [app length]; lia).
  change (rd (48 :: l ++ body) 0) with (rd ([] ++ 48 :: l ++ body) (len (@nil Z))). rewrite rd_app0. cbn [Z.eqb Pos.eqb negb].
  change (48 :: l ++ body) with ([48] ++ l ++ body).
  change 1 with (len [48]) at 1. rewrite read_len_eq by exact B. rewrite (rl_fwd _ l body (len body) D); [|lia|exact LB].
  replace (len body =? len ([48] ++ l ++ body) - (len [48] + len l)) with true by (symmetry; apply Z.eqb_eq; rewrite !app_length; lia). cbn [negb].
  apply byte_list_app in B as [_ B]. unfold body in B. cbn [app] in B. apply byte_list_cons in B as [_ B].
  replace (len [48] + len l) with (len ([48] ++ l)) by (rewrite app_length; lia).
  assert (E1 : [48] ++ l ++ body = ([48] ++ l) ++ 2 :: l1 ++ cr ++ 2 :: l2 ++ cs) by (unfold body; cbn [app]; now rewrite <- !app_assoc).
  rewrite E1. clear E1. rewrite <- app_assoc in B.
  assert (LB2 : (1 + length l1 + length cr + (1 + length l2 + length cs) = length body)%nat) by (unfold body; rewrite app_length; cbn [length]; rewrite !app_length; lia).
  destruct (int_fwd ([48] ++ l) l1 cr (2 :: l2 ++ cs) B) as (r & E & OK & V); [|exact D1|exact CR|].
  { rewrite app_length. cbn [length]. rewrite app_length. lia. }
  rewrite E. apply byte_list_app in B as [_ B]. apply byte_list_app in B as [_ B]. apply byte_list_cons in B as [_ B].
  destruct (int_fwd (([48] ++ l) ++ 2 :: l1 ++ cr) l2 cs []) as (s & E' & OK' & V'); [now rewrite app_nil_r|rewrite app_nil_r; lia|exact D2|exact CS|].
  rewrite !app_nil_r in E'.
  replace (([48] ++ l) ++ 2 :: l1 ++ cr ++ 2 :: l2 ++ cs) with ((([48] ++ l) ++ 2 :: l1 ++ cr) ++ 2 :: l2 ++ cs) by (rewrite <- !app_assoc; cbn [app]; now rewrite <- !app_assoc).
  rewrite E', Z.eqb_refl. cbn [negb]. exists r, s. tauto.
Qed.
Lemma sig_parse_bwd input : byte_list input -> len input < 2 ^ 64 ->
  ecdsa_sig_parse input <> Ub /\ forall x, ecdsa_sig_parse input = Ret1 x -> exists cr cs, der_signature cr cs input.
Proof.
  intros B L. unfold ecdsa_sig_parse. destruct input as [|tag rest]; [split; discriminate|].
  replace (0 =? len (tag :: rest)) with false by (symmetry; apply Z.eqb_neq; cbn [length]; lia).
  change (rd (tag :: rest) 0) with (rd ([] ++ tag :: rest) (len (@nil Z))). rewrite rd_app0.
  destruct (tag =? 48) eqn:Q; cbn [negb]; [|split; discriminate]. apply Z.eqb_eq in Q. subst tag.
  apply byte_list_cons in B as [_ B]. change (der_read_len (48 :: rest) 1) with (der_read_len ([48] ++ rest) (len [48])). rewrite read_len_eq by exact B.
  pose proof (rl_noub (len [48]) rest) as NU. destruct (rl_spec (len [48]) rest) as [| |[k pos']] eqn:E; [contradiction|split; discriminate|]. clear NU.
  destruct (rl_bwd _ _ _ _ B E) as (l & body & -> & D & -> & _). apply byte_list_app in B as [_ B].
  destruct (k =? len (48 :: l ++ body) - (len [48] + len l)) eqn:Q; cbn [negb]; [|split; discriminate].
  apply Z.eqb_eq in Q. cbn [length] in Q. rewrite app_length in Q. assert (K : k = len body) by lia. clear Q. subst k.
  replace (len [48] + len l) with (len ([48] ++ l)) by (rewrite app_length; lia).
  change (48 :: l ++ body) with ([48] ++ l ++ body) in *. rewrite (app_assoc [48]) in *.
  destruct (int_bwd ([48] ++ l) body B L) as (NU & BW). destruct (der_parse_integer (([48] ++ l) ++ body) (len ([48] ++ l))) as [| |[r pos]] eqn:ER; [contradiction|split; discriminate|]. clear NU.
  destruct (BW r pos eq_refl) as (l1 & cr & rest' & -> & D1 & CR & ->).
  assert (B' : byte_list rest') by (apply byte_list_cons in B as [_ B]; apply byte_list_app in B as [_ B]; apply byte_list_app in B; tauto).
  assert (EQ : ([48] ++ l) ++ 2 :: l1 ++ cr ++ rest' = (([48] ++ l) ++ 2 :: l1 ++ cr) ++ rest') by (rewrite <- !app_assoc; cbn [app]; now rewrite <- !app_assoc).
  rewrite EQ in L |- *. destruct (int_bwd _ _ B' L) as (NU & BW').
  destruct (der_parse_integer ((([48] ++ l) ++ 2 :: l1 ++ cr) ++ rest') (len (([48] ++ l) ++ 2 :: l1 ++ cr))) as [| |[s pos]] eqn:ES; [contradiction|split; discriminate|]. clear NU.
  destruct (BW' s pos eq_refl) as (l2 & cs & rest2 & -> & D2 & CS & ->).
  destruct (_ =? _) eqn:Q; cbn [negb]; [|split; discriminate]. split; [discriminate|]. intros x _. apply Z.eqb_eq in Q.
  assert (R2 : rest2 = []).
  { destruct rest2; [reflexivity|]. rewrite !app_length in Q. cbn [length] in Q. rewrite !app_length in Q. cbn [length] in Q. lia. }
  subst rest2. rewrite app_nil_r in *. exists cr, cs. split; [exact CR|split; [exact CS|]]. exists (2 :: l1 ++ cr), (2 :: l2 ++ cs).
  split; [exists l1; split; [exact D1|reflexivity]|]. split; [exists l2; split; [exact D2|reflexivity]|]. exists l. split.
  - replace (len ((2 :: l1 ++ cr) ++ 2 :: l2 ++ cs)) with (len (2 :: l1 ++ cr ++ 2 :: l2 ++ cs)) by (cbn [app length]; now rewrite <- app_assoc). exact D.
  - rewrite <- !app_assoc. cbn [app]. now rewrite <- !app_assoc.
Qed.

(** ** Serialization *)
Lemma der_trim_ok l : byte_list l -> forall a t, l = a :: t -> a < 128 ->
  byte_list (der_trim l) /\ be_val (der_trim l) = be_val l /\ bad_int (der_trim l) = false /\ (length (der_trim l) <= length l)%nat /\
  exists a' t', der_trim l = a' :: t' /\ a' < 128.
Proof.
  induction l as [|a0 l IH]; intros B a t E A; [discriminate|]. injection E as -> ->. cbn [der_trim].
  destruct t as [|b t].
  - split; [exact B|split; [reflexivity|split; [reflexivity|split; [lia|]]]]. exists a, []. split; [reflexivity|exact A].
  - destruct ((a =? 0) && (b <? 128)) eqn:Q.
    + apply andb_prop in Q as [Q1 Q2]. apply Z.eqb_eq in Q1. apply Z.ltb_lt in Q2. subst a. apply byte_list_cons in B as [_ B].
      destruct (IH B b t eq_refl Q2) as (A1 & A2 & A3 & A4 & A5). split; [exact A1|split; [|split; [exact A3|split; [cbn [length] in *; lia|exact A5]]]].
      rewrite A2, (be_val_cons 0). ring.
    + split; [exact B|split; [reflexivity|split; [|split; [lia|exists a, (b :: t); split; [reflexivity|exact A]]]]].
      cbn [bad_int]. rewrite Q. replace (a =? 255) with false by (symmetry; apply Z.eqb_neq; lia). reflexivity.
Qed.
Lemma der_trim_sc a : sc_ok a -> let c := der_trim (0 :: sc_get_b32 a) in
  der_int_contents c /\ der_int_value c = sv a /\ (1 <= length c <= 33)%nat /\ byte_list c.
Proof.
  intros H c. assert (E : sc_get_b32 a = be_bytes 32 (sv a)) by (apply sc_get_b32_ok; apply H).
  assert (B : byte_list (0 :: sc_get_b32 a)) by (apply byte_list_cons; split; [lia|rewrite E; apply be_bytes_byte_list]).
  destruct (der_trim_ok _ B 0 _ eq_refl ltac:(lia)) as (A1 & A2 & A3 & A4 & a' & t' & A5 & A6). fold c in A1, A2, A3, A4, A5.
  assert (R : 0 <= sv a < 2 ^ 256).
  { destruct H as [(W0 & W1 & W2 & W3) _]. unfold wd in *. unfold sv. lia. }
  assert (V : be_val c = sv a).
  { rewrite A2, be_val_cons, E, be_bytes_32_val by exact R. ring. }
  split; [|split; [|split; [|exact A1]]].
  - apply contents_iff. split; [exact A1|split; [rewrite A5; discriminate|exact A3]].
  - rewrite A5 in V |- *. unfold der_int_value. apply Z.ltb_lt in A6. rewrite A6. exact V.
  - rewrite A5 in A4 |- *. cbn [length] in *. rewrite E, be_bytes_length in A4. lia.
Qed.
Lemma wr_app a data rest : (length data <= length rest)%nat -> wr_n (a ++ rest) (len a) data = Some (a ++ data ++ skipn (length data) rest).
Proof.
  intro H. unfold wr_n. rewrite app_length. replace ((0 <=? len a) && (len a + len data <=? Z.of_nat (length a + length rest))) with true
    by (symmetry; apply andb_true_intro; split; apply Z.leb_le; lia).
  f_equal. unfold copy_at. rewrite Nat2Z.id, firstn_app, firstn_all, Nat.sub_diag. cbn [firstn]. rewrite app_nil_r. f_equal. f_equal.
  rewrite skipn_app, skipn_all2 by lia. cbn [app]. f_equal. lia.
Qed.
Definition der_enc (rp sp : list Z) : list Z := [0x30; 4 + len sp + len rp; 0x02; len rp] ++ rp ++ [0x02; len sp] ++ sp.
Lemma sig_serialize_ok out size a b : sc_ok a -> sc_ok b -> 0 <= size <= len out ->
  let rp := der_trim (0 :: sc_get_b32 a) in let sp := der_trim (0 :: sc_get_b32 b) in
  ecdsa_sig_serialize out size a b =
    Some (if len (der_enc rp sp) <=? size then (true, len (der_enc rp sp), der_enc rp sp ++ skipn (length (der_enc rp sp)) out)
          else (false, len (der_enc rp sp), out)).
Proof.
  intros HA HB HS rp sp. unfold ecdsa_sig_serialize. fold rp sp. destruct (der_trim_sc a HA) as (_ & _ & LR & _). destruct (der_trim_sc b HB) as (_ & _ & LS & _). fold rp in LR. fold sp in LS.
  assert (LE : len (der_enc rp sp) = 6 + len sp + len rp) by (unfold der_enc; rewrite !app_length; cbn [length]; lia). rewrite LE.
  destruct (size <? 6 + len sp + len rp) eqn:Q.
  - apply Z.ltb_lt in Q. replace (6 + len sp + len rp <=? size) with false by (symmetry; apply Z.leb_gt; lia). reflexivity.
  - apply Z.ltb_ge in Q. replace (6 + len sp + len rp <=? size) with true by (symmetry; apply Z.leb_le; lia).
    rewrite (w8_id (4 + len sp + len rp)) by lia. rewrite (w8_id (len rp)), (w8_id (len sp)) by lia.
    set (h1 := [0x30; 4 + len sp + len rp; 0x02; len rp]). set (h2 := [0x02; len sp]).
    change (wr_n out 0 h1) with (wr_n ([] ++ out) (len (@nil Z)) h1). rewrite wr_app by (cbn [length h1]; lia). cbn [app].
    replace 4 with (len h1) at 1 by reflexivity. rewrite wr_app by (rewrite skipn_length; cbn [length h1]; lia).
    rewrite skipn_add. rewrite app_assoc. replace (4 + len rp) with (len (h1 ++ rp)) by (rewrite app_length; cbn [length h1]; lia).
    rewrite wr_app by (rewrite skipn_length; cbn [length h1 h2]; lia). rewrite skipn_add, (app_assoc (h1 ++ rp)).
    replace (len rp + 6) with (len ((h1 ++ rp) ++ h2)) by (rewrite !app_length; cbn [length h1 h2]; lia).
    rewrite wr_app by (rewrite skipn_length; cbn [length h1 h2]; lia). rewrite skipn_add. f_equal. f_equal. unfold der_enc. fold h1 h2.
    rewrite <- !app_assoc. rewrite !app_length. do 4 f_equal. f_equal. cbn [length h1 h2]. lia.
Qed.
Lemma der_enc_ok a b : sc_ok a -> sc_ok b -> let rp := der_trim (0 :: sc_get_b32 a) in let sp := der_trim (0 :: sc_get_b32 b) in
  der_signature rp sp (der_enc rp sp) /\ byte_list (der_enc rp sp) /\ 8 <= len (der_enc rp sp) <= 72.
Proof.
  intros HA HB rp sp. destruct (der_trim_sc a HA) as (CR & VR & LR & BR). destruct (der_trim_sc b HB) as (CS & VS & LS & BS). fold rp in CR, VR, LR, BR. fold sp in CS, VS, LS, BS.
  split; [|split].
  - split; [exact CR|split; [exact CS|]]. exists (2 :: [len rp] ++ rp), (2 :: [len sp] ++ sp).
    split; [exists [len rp]; split; [left; split; [lia|reflexivity]|reflexivity]|].
    split; [exists [len sp]; split; [left; split; [lia|reflexivity]|reflexivity]|].
    exists [4 + len sp + len rp]. split.
    + left. cbn [app length]. rewrite app_length. cbn [length]. split; [lia|]. f_equal. lia.
    + reflexivity.
  - unfold der_enc. cbn [app]. repeat (apply byte_list_cons; split; [lia|]). apply byte_list_app. split; [exact BR|].
    repeat (apply byte_list_cons; split; [lia|]). exact BS.
  - unfold der_enc. rewrite !app_length. cbn [length]. lia.
Qed.
