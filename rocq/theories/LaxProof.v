(** Proofs about the permissive parsers of contrib/. *)
Require Import ZArith List Bool Lia.
From Verif Require Import Word Bytes Spec SpecApi SpecDer SpecLax ScalarModel ScalarProof HashModel EcdsaModel ApiModel ApiVocab ApiProof ApiProof2 EcdsaProof DerProof DerProps KeyProps KeyProps2 LaxModel.
Import ListNotations.
Local Open Scope Z_scope.
Local Open Scope c_scope.
Local Notation len l := (Z.of_nat (length l)).

(** ** Loops *)

Fixpoint strip0 (l : list Z) : list Z := match l with [] => [] | b :: t => if b =? 0 then strip0 t else l end.
Lemma strip0_suffix l : exists k, l = repeat 0 k ++ strip0 l.
Proof.
  induction l as [|b t (k & IH)]; [exists O; reflexivity|]. cbn [strip0]. destruct (b =? 0) eqn:Q0.
  - apply Z.eqb_eq in Q0. exists (S k). cbn [repeat app]. subst b. f_equal. exact IH.
  - exists O. reflexivity.
Qed.
Lemma strip0_val l : be_val (strip0 l) = be_val l.
Proof. destruct (strip0_suffix l) as (k & E). rewrite E at 2. symmetry. apply be_val_zeros. Qed.
Lemma strip0_len l : len (strip0 l) <= len l.
Proof. destruct (strip0_suffix l) as (k & E). rewrite E at 2. rewrite app_length. lia. Qed.
Lemma strip0_bytes l : byte_list l -> byte_list (strip0 l).
Proof. intro B. induction l as [|b t IH]; [exact B|]. cbn [strip0]. destruct (b =? 0); [|exact B]. apply IH. now apply byte_list_cons in B. Qed.
Lemma strip0_big l k : byte_list l -> 0 <= k -> k < len (strip0 l) -> 256 ^ k <= be_val l.
Proof.
  intros B K H. rewrite <- strip0_val. pose proof (strip0_bytes l B) as B'. revert H B'.
  assert (N : forall b t, strip0 l = b :: t -> b <> 0).
  { clear. induction l as [|a l' IH]; [discriminate|]. cbn [strip0]. destruct (a =? 0) eqn:Q0; [exact IH|]. intros b t E. injection E as <- <-. now apply Z.eqb_neq. }
  destruct (strip0 l) as [|b t] eqn:E; [cbn; lia|]. intros H B'. specialize (N b t eq_refl).
  apply byte_list_cons in B' as [B1 B2]. rewrite be_val_cons. pose proof (be_val_range t B2). cbn [length] in H.
  assert (256 ^ k <= 256 ^ len t) by (apply Z.pow_le_mono_r; lia). nia.
Qed.
Lemma skip_zeros_ok l : forall pre rest,
  lax_skip_zeros (length l) (pre ++ l ++ rest) (len pre) = Some (len pre + (len l - len (strip0 l)), len (strip0 l)).
Proof.
  induction l as [|b t IH]; intros pre rest; [cbn; f_equal; f_equal; lia|].
  cbn [length lax_skip_zeros app]. rewrite rd_app0. cbn [strip0]. destruct (b =? 0).
  - rewrite cons_app, (len_snoc pre b), IH. f_equal. f_equal. rewrite app_length. cbn [length]. lia.
  - cbn [length]. f_equal. f_equal. lia.
Qed.
Lemma len_loop_ok ds : forall pre rest acc, byte_list ds -> 0 <= acc -> acc * 256 ^ len ds + be_val ds < 2 ^ 64 ->
  lax_len_loop (length ds) (pre ++ ds ++ rest) acc (len pre) = Some (acc * 256 ^ len ds + be_val ds, len pre + len ds).
Proof.
  induction ds as [|d ds IH]; intros pre rest acc B A H.
  - cbn. f_equal. f_equal; lia.
  - apply byte_list_cons in B as [B1 B2]. cbn [length lax_len_loop app]. rewrite rd_app0. rewrite be_val_cons in H |- *. cbn [length] in H |- *.
    rewrite Nat2Z.inj_succ, Z.pow_succ_r in H |- * by lia. pose proof (be_val_range ds B2) as R.
    assert (P : 0 < 256 ^ len ds) by (apply Z.pow_pos_nonneg; lia).
    assert (AB : acc * 256 + d < 2 ^ 64) by nia.
    assert (E : (acc <<! 8) +! d = acc * 256 + d).
    { rewrite Z.shiftl_mul_pow2 by lia. change (2 ^ 8) with 256. rewrite (w64_id (acc * 256)) by lia. rewrite w64_id by lia. reflexivity. }
    rewrite E, cons_app, (len_snoc pre d). rewrite (IH (pre ++ [d]) rest (acc * 256 + d)) by (try assumption; nia).
    f_equal. f_equal; [ring|]. rewrite app_length. cbn [length]. lia.
Qed.

(** ** Lengths *)

Definition ll_spec (rest : list Z) : option (Z * Z) :=
  match rest with
  | [] => None
  | b :: r =>
    if b <? 128 then Some (b, 1)
    else if len r <? b - 128 then None
    else let v := be_val (firstn (Z.to_nat (b - 128)) r) in if 2 ^ 56 <=? v then None else Some (v, 1 + (b - 128))
  end.
Lemma ll_bwd rest k j : byte_list rest -> ll_spec rest = Some (k, j) ->
  exists enc r, rest = enc ++ r /\ lax_length enc k /\ len enc = j /\ 0 <= k.
Proof.
  destruct rest as [|b r]; [discriminate|]. intros B H. apply byte_list_cons in B as [B1 B2]. cbn [ll_spec] in H. destruct (b <? 128) eqn:Q0.
  - injection H as <- <-. apply Z.ltb_lt in Q0. exists [b], r. repeat split; [left; split; [lia|reflexivity]|lia].
  - apply Z.ltb_ge in Q0. destruct (len r <? b - 128) eqn:Q1; [discriminate|]. apply Z.ltb_ge in Q1. cbv zeta in H.
    destruct (2 ^ 56 <=? _) eqn:Q2 in H; [discriminate|]. apply Z.leb_gt in Q2.
    assert (HK : be_val (firstn (Z.to_nat (b - 128)) r) = k) by congruence. assert (HJ : 1 + (b - 128) = j) by congruence. clear H. subst k j. set (j := Z.to_nat (b - 128)) in *.
    assert (L : length (firstn j r) = j) by (apply firstn_length_le; unfold j; lia).
    exists (b :: firstn j r), (skipn j r). cbn [app length]. rewrite firstn_skipn, L. repeat split.
    + right. exists (firstn j r). rewrite L. repeat split; [now apply byte_list_firstn|unfold j; lia|exact Q2|f_equal; unfold j; lia].
    + unfold j. lia.
    + apply be_val_range. now apply byte_list_firstn.
Qed.
Lemma ll_fwd enc r k : lax_length enc k -> ll_spec (enc ++ r) = Some (k, len enc).
Proof.
  intros [[K ->]|(ds & B & L & V & K & ->)]; cbn [app ll_spec].
  - replace (k <? 128) with true by (symmetry; apply Z.ltb_lt; lia). reflexivity.
  - replace (128 + len ds <? 128) with false by (symmetry; apply Z.ltb_ge; lia). rewrite app_length.
    replace (128 + len ds - 128) with (len ds) by lia. replace (Z.of_nat (length ds + length r) <? len ds) with false by (symmetry; apply Z.ltb_ge; lia).
    rewrite Nat2Z.id, firstn_app, firstn_all, Nat.sub_diag, firstn_O, app_nil_r, V. cbv zeta.
    replace (2 ^ 56 <=? k) with false by (symmetry; apply Z.leb_gt; lia). f_equal. f_equal. cbn [length]. lia.
Qed.
(** The part of [lax_integer] after the tag. *)
Definition lax_len_part (input : list Z) (pos : Z) : outcome (Z * Z) :=
  let inputlen := len input in
  if pos =? inputlen then Ret0 else
  match rd input pos with
  | None => Ub
  | Some lenbyte =>
    let pos := pos + 1 in
    match (if negb ((lenbyte &! 0x80) =? 0) then
             let lenbyte := lenbyte - 0x80 in
             if lenbyte >? inputlen - pos then Ret0 else
             match lax_skip_zeros (Z.to_nat lenbyte) input pos with
             | None => Ub
             | Some (pos, lenbyte) =>
               if lenbyte >=? 8 then Ret0 else
               match lax_len_loop (Z.to_nat lenbyte) input 0 pos with None => Ub | Some (rlen, pos) => Ret1 (rlen, pos) end
             end
           else Ret1 (lenbyte, pos)) with
    | Ub => Ub
    | Ret0 => Ret0
    | Ret1 (rlen, pos) => if rlen >? inputlen - pos then Ret0 else Ret1 (pos, rlen)
    end
  end.
Lemma lax_integer_eq input pos : lax_integer input pos =
  if pos =? len input then Ret0 else
  match rd input pos with None => Ub | Some tag => if negb (tag =? 0x02) then Ret0 else lax_len_part input (pos + 1) end.
Proof. reflexivity. Qed.
Lemma len_part_eq pre rest : byte_list rest -> lax_len_part (pre ++ rest) (len pre) =
  match ll_spec rest with None => Ret0 | Some (k, j) => if len rest - j <? k then Ret0 else Ret1 (len pre + j, k) end.
Proof.
  intro B. unfold lax_len_part. rewrite app_length, Nat2Z.inj_add. destruct rest as [|b r].
  - cbn [length Z.of_nat ll_spec]. now replace (len pre =? len pre + 0) with true by (symmetry; apply Z.eqb_eq; lia).
  - cbn [length]. replace (len pre =? _) with false by (symmetry; apply Z.eqb_neq; lia). rewrite rd_app0.
    apply byte_list_cons in B as [B1 B2]. destruct (land80 b B1) as [E1 _]. rewrite E1. cbn [ll_spec]. destruct (b <? 128) eqn:Q0; cbn [negb].
    + rewrite gtb_ltb. replace (len pre + Z.of_nat (S (length r)) - (len pre + 1)) with (Z.of_nat (S (length r)) - 1) by lia. reflexivity.
    + apply Z.ltb_ge in Q0. cbv zeta. rewrite gtb_ltb. replace (len pre + Z.of_nat (S (length r)) - (len pre + 1)) with (len r) by lia.
      destruct (len r <? b - 128) eqn:Q1; [reflexivity|]. apply Z.ltb_ge in Q1. set (k := Z.to_nat (b - 128)) in *.
      assert (KL : length (firstn k r) = k) by (apply firstn_length_le; unfold k; lia).
      assert (BD : byte_list (firstn k r)) by now apply byte_list_firstn.
      set (ds := firstn k r) in *. set (tl := skipn k r) in *. assert (ER : r = ds ++ tl) by (symmetry; apply firstn_skipn).
      pose proof (skip_zeros_ok ds (pre ++ [b]) tl) as SK. rewrite <- app_assoc in SK. cbn [app] in SK. rewrite <- ER, KL, <- (len_snoc pre b) in SK. rewrite SK.
      pose proof (strip0_len ds) as SL. rewrite Z.geb_leb. destruct (8 <=? len (strip0 ds)) eqn:Q2.
      * apply Z.leb_le in Q2. pose proof (strip0_big ds 7 BD ltac:(lia) ltac:(lia)) as SB. change (256 ^ 7) with (2 ^ 56) in SB.
        now replace (2 ^ 56 <=? be_val ds) with true by (symmetry; apply Z.leb_le; lia).
      * apply Z.leb_gt in Q2. pose proof (strip0_bytes ds BD) as SB. pose proof (be_val_range _ SB) as SR. rewrite strip0_val in SR.
        assert (P7 : 256 ^ len (strip0 ds) <= 256 ^ 7) by (apply Z.pow_le_mono_r; lia). change (256 ^ 7) with (2 ^ 56) in P7.
        replace (2 ^ 56 <=? be_val ds) with false by (symmetry; apply Z.leb_gt; lia).
        destruct (strip0_suffix ds) as (z & EZ).
        assert (LL : lax_len_loop (Z.to_nat (len (strip0 ds))) (pre ++ b :: r) 0 (len pre + 1 + (Z.of_nat k - len (strip0 ds))) = Some (be_val ds, len pre + 1 + Z.of_nat k)).
        { pose proof (len_loop_ok (strip0 ds) (pre ++ [b] ++ repeat 0 z) tl 0 SB (Z.le_refl 0)) as T. rewrite strip0_val in T.
          specialize (T ltac:(lia)). rewrite Nat2Z.id.
          replace ((pre ++ [b] ++ repeat 0 z) ++ strip0 ds ++ tl) with (pre ++ b :: r) in T.
          2: { rewrite ER. rewrite EZ at 1. rewrite <- !app_assoc. reflexivity. }
          replace (len (pre ++ [b] ++ repeat 0 z)) with (len pre + 1 + (Z.of_nat k - len (strip0 ds))) in T.
          2: { rewrite !app_length, repeat_length. rewrite <- KL. rewrite EZ at 1. rewrite app_length, repeat_length. cbn [length]. lia. }
          rewrite T. f_equal. f_equal; lia. }
        rewrite LL. rewrite gtb_ltb. replace (Z.of_nat k) with (b - 128) by (unfold k; lia).
        replace (len pre + Z.of_nat (S (length r)) - (len pre + 1 + (b - 128))) with (Z.of_nat (S (length r)) - (1 + (b - 128))) by lia.
        replace (len pre + (1 + (b - 128))) with (len pre + 1 + (b - 128)) by lia. reflexivity.
Qed.

(** ** Integers *)

Lemma lax_integer_fwd pre c enc rest : byte_list (enc ++ rest) -> lax_int c enc ->
  exists l, enc = 2 :: l ++ c /\ lax_integer (pre ++ enc ++ rest) (len pre) = Ret1 (len (pre ++ 2 :: l), len c).
Proof.
  intros B (l & L & ->). exists l. split; [reflexivity|]. rewrite lax_integer_eq. cbn [app]. rewrite rd_app0, app_length, Nat2Z.inj_add. cbn [length].
  replace (len pre =? _) with false by (symmetry; apply Z.eqb_neq; lia). cbn [Z.eqb Pos.eqb negb]. rewrite cons_app, (len_snoc pre 2).
  rewrite len_part_eq. 2: { cbn [app] in B. now apply byte_list_cons in B. }
  rewrite <- app_assoc. rewrite (ll_fwd _ _ _ L). replace (_ <? _) with false by (symmetry; apply Z.ltb_ge; rewrite !app_length; lia).
  f_equal. f_equal. rewrite !app_length. cbn [length]. lia.
Qed.
Lemma lax_integer_bwd pre rest : byte_list rest ->
  lax_integer (pre ++ rest) (len pre) = Ret0 \/
  exists l c rest', rest = 2 :: l ++ c ++ rest' /\ lax_int c (2 :: l ++ c) /\ lax_integer (pre ++ rest) (len pre) = Ret1 (len (pre ++ 2 :: l), len c).
Proof.
  intros B. rewrite lax_integer_eq. destruct rest as [|t r].
  - rewrite app_nil_r, Z.eqb_refl. left. reflexivity.
  - rewrite app_length, Nat2Z.inj_add. cbn [length]. replace (len pre =? _) with false by (symmetry; apply Z.eqb_neq; lia).
    rewrite rd_app0. apply byte_list_cons in B as [_ B2]. destruct (t =? 2) eqn:Q0; [|left; reflexivity]. apply Z.eqb_eq in Q0. subst t. cbn [negb].
    rewrite cons_app, (len_snoc pre 2), len_part_eq by assumption. destruct (ll_spec r) as [[k j]|] eqn:E; [|left; reflexivity].
    destruct (_ <? k) eqn:Q1; [left; reflexivity|]. apply Z.ltb_ge in Q1. destruct (ll_bwd r k j B2 E) as (l & r' & ER & L & J & K). right.
    rewrite ER, app_length in Q1. destruct (app_split r' k ltac:(lia)) as (c & rest' & E' & LC). exists l, c, rest'. subst r' k.
    split; [now rewrite ER|]. split; [exists l; now split|]. f_equal. f_equal. rewrite !app_length. cbn [length]. lia.
Qed.
Lemma ge_256_32_n l : 256 ^ 32 <= be_val l -> n <= be_val l. Proof. destruct n_lt_256 as [H _]. lia. Qed.
Lemma lax_copy_ok pre c rest a b at_ : byte_list c -> len a = at_ - 32 ->
  exists tmp ov, lax_copy (pre ++ c ++ rest) (len pre) (len c) (a ++ repeat 0 32 ++ b) at_ = Some (tmp, ov) /\
    (if ov then n <= be_val c /\ tmp = a ++ repeat 0 32 ++ b
     else exists d, tmp = a ++ d ++ b /\ bytes_n 32 d /\ be_val d = be_val c).
Proof.
  intros B A. unfold lax_copy. rewrite Nat2Z.id, skip_zeros_ok. set (t := strip0 c).
  pose proof (strip0_bytes c B) as BT. fold t in BT. pose proof (strip0_len c) as LT. fold t in LT. rewrite gtb_ltb. destruct (32 <? len t) eqn:Q0.
  - apply Z.ltb_lt in Q0. exists (a ++ repeat 0 32 ++ b), true. split; [reflexivity|]. split; [|reflexivity]. apply ge_256_32_n. apply strip0_big; [assumption|lia|exact Q0].
  - apply Z.ltb_ge in Q0. destruct (len t =? 0) eqn:Q1.
    + apply Z.eqb_eq in Q1. exists (a ++ repeat 0 32 ++ b), false. split; [reflexivity|]. exists (repeat 0 32). split; [reflexivity|]. split.
      * split; [repeat constructor; lia|reflexivity].
      * rewrite <- (strip0_val c). fold t. destruct t; [reflexivity|cbn in Q1; lia].
    + apply Z.eqb_neq in Q1. destruct (strip0_suffix c) as (z & EZ). fold t in EZ.
      assert (RD : rd_n (pre ++ c ++ rest) (len pre + (len c - len t)) (len t) = Some t).
      { replace (pre ++ c ++ rest) with ((pre ++ repeat 0 z) ++ t ++ rest) by (rewrite EZ; rewrite <- !app_assoc; reflexivity).
        replace (len pre + (len c - len t)) with (len (pre ++ repeat 0 z)) by (rewrite EZ; rewrite !app_length; lia).
        rewrite rd_n_app by (rewrite app_length; lia). now rewrite firstn_app, firstn_all, Nat.sub_diag, firstn_O, app_nil_r. }
      rewrite RD. set (m := (32 - length t)%nat).
      replace (a ++ repeat 0 32 ++ b) with ((a ++ repeat 0 m) ++ (repeat 0 (length t) ++ b)).
      2: { rewrite <- app_assoc. f_equal. rewrite app_assoc, <- repeat_app. f_equal. f_equal. unfold m. lia. }
      replace (at_ - len t) with (len (a ++ repeat 0 m)) by (rewrite app_length, repeat_length; unfold m; lia).
      rewrite wr_app by (rewrite app_length, repeat_length; lia). exists ((a ++ repeat 0 m) ++ t ++ b), false.
      split. { do 2 f_equal. rewrite skipn_app, repeat_length, Nat.sub_diag, skipn_O. rewrite skipn_all2 by (rewrite repeat_length; lia). reflexivity. }
      exists (repeat 0 m ++ t). split; [now rewrite <- !app_assoc|]. split; [|rewrite be_val_zeros; apply strip0_val].
      split; [|rewrite app_length, repeat_length; unfold m; lia]. apply Forall_app. split; [|exact BT]. apply Forall_forall. intros x I. apply repeat_spec in I. lia.
Qed.

(** ** Signatures *)

Definition lax_finish (first : res (option (list Z))) (input : list Z) (rpos rlen spos slen : Z) : option (res (option (list Z))) :=
  match lax_copy input rpos rlen (repeat 0 64) 32 with
  | None => None
  | Some (tmpsig, ov1) =>
    match lax_copy input spos slen tmpsig 64 with
    | None => None
    | Some (tmpsig, ov2) =>
      let second := if ov1 || ov2 then mkres 0 0 (r_out first) else ecdsa_signature_parse_compact (r_out first) (Some tmpsig) in
      let overflow := (ov1 || ov2) || (r_ret second =? 0) in
      let third := if overflow then ecdsa_signature_parse_compact (r_out second) (Some (repeat 0 64)) else mkres 0 0 (r_out second) in
      Some (mkres 1 (r_ill first + r_ill second + r_ill third) (r_out third))
    end
  end.
Definition lax_body (first : res (option (list Z))) (input : list Z) (pos : Z) : option (res (option (list Z))) :=
  let fail := Some (mkres 0 (r_ill first) (r_out first)) in
  match lax_integer input pos with
  | Ub => None
  | Ret0 => fail
  | Ret1 (rpos, rlen) =>
    match lax_integer input (rpos + rlen) with
    | Ub => None
    | Ret0 => fail
    | Ret1 (spos, slen) => lax_finish first input rpos rlen spos slen
    end
  end.
Lemma lax_parse_eq sig input : ecdsa_signature_parse_der_lax sig input =
  let inputlen := len input in
  let first := ecdsa_signature_parse_compact (Some sig) (Some (repeat 0 64)) in
  let fail := Some (mkres 0 (r_ill first) (r_out first)) in
  if 0 =? inputlen then fail else
  match rd input 0 with
  | None => None
  | Some tag =>
    if negb (tag =? 0x30) then fail
    else if 1 =? inputlen then fail
    else match rd input 1 with
    | None => None
    | Some lenbyte =>
      let long := negb ((lenbyte &! 0x80) =? 0) in
      if long && (lenbyte - 0x80 >? inputlen - 2) then fail else
      lax_body first input (if long then 2 + (lenbyte - 0x80) else 2)
    end
  end.
Proof. reflexivity. Qed.
Lemma n_pos0 : 0 < n. Proof. apply n_lt_256. Qed.
Lemma zeros64 : bytes_n 64 (repeat 0 64). Proof. split; [repeat constructor; lia|reflexivity]. Qed.
Lemma compact_zero sig : ecdsa_signature_parse_compact (Some sig) (Some (repeat 0 64)) = mkres 1 0 (Some (repeat 0 64)).
Proof.
  destruct (prop_compact sig sig (repeat 0 64) zeros64) as [(_ & s & E & H & _)|(H & _)].
  - rewrite E. do 2 f_equal. destruct H as (_ & _ & ->). reflexivity.
  - exfalso. apply H. change (be_val (firstn 32 (repeat 0 64))) with 0. change (be_val (skipn 32 (repeat 0 64))) with 0. pose proof n_pos0. lia.
Qed.
Lemma finish_ok pre cr mid cs rest ill z : byte_list cr -> byte_list cs ->
  exists sig, lax_finish (mkres ill 0 (Some z)) (pre ++ cr ++ mid ++ cs ++ rest) (len pre) (len cr) (len (pre ++ cr ++ mid)) (len cs) = Some (mkres 1 0 (Some sig)) /\
    sig_holds sig (fst (lax_numbers cr cs)) (snd (lax_numbers cr cs)).
Proof.
  intros B1 B2. unfold lax_finish.
  destruct (lax_copy_ok pre cr (mid ++ cs ++ rest) [] (repeat 0 32) 32 B1 eq_refl) as (t1 & ov1 & E1 & H1).
  change ([] ++ repeat 0 32 ++ repeat 0 32) with (repeat 0 64) in E1, H1. rewrite E1.
  assert (A : exists a, t1 = a ++ repeat 0 32 /\ length a = 32%nat /\ (ov1 = false -> bytes_n 32 a /\ be_val a = be_val cr)).
  { destruct ov1.
    - destruct H1 as [_ ->]. exists (repeat 0 32). split; [reflexivity|]. split; [reflexivity|discriminate].
    - destruct H1 as (d & -> & D & V). exists d. split; [reflexivity|]. split; [apply D|]. intros _. now split. }
  destruct A as (a & -> & LA & HA).
  destruct (lax_copy_ok (pre ++ cr ++ mid) cs rest a [] 64 B2 ltac:(rewrite LA; reflexivity)) as (t2 & ov2 & E2 & H2).
  rewrite !app_nil_r in *. replace ((pre ++ cr ++ mid) ++ cs ++ rest) with (pre ++ cr ++ mid ++ cs ++ rest) in E2 by (rewrite <- !app_assoc; reflexivity).
  rewrite E2. cbn [r_out r_ill]. destruct (ov1 || ov2) eqn:OV.
  - cbn [orb r_out r_ill r_ret]. rewrite compact_zero. cbn [r_out r_ill]. exists (repeat 0 64). split; [reflexivity|].
    replace (lax_numbers cr cs) with (0, 0); [exact sig_zero|]. unfold lax_numbers.
    replace ((be_val cr <? n) && (be_val cs <? n)) with false; [reflexivity|]. symmetry. apply andb_false_iff. rewrite !Z.ltb_ge.
    apply orb_true_iff in OV as [->| ->]; [left; apply H1|right; apply H2].
  - apply orb_false_elim in OV as [-> ->]. destruct (HA eq_refl) as (BA & VA). destruct H2 as (d & -> & D & V). cbn [orb]. rewrite app_nil_r.
    assert (B64 : bytes_n 64 (a ++ d)) by (destruct BA, D; split; [now apply Forall_app|rewrite app_length; lia]).
    pose proof (prop_compact z z (a ++ d) B64) as P. rewrite firstn_app, skipn_app, firstn_all2, skipn_all2, LA in P by lia. rewrite Nat.sub_diag, firstn_O, skipn_O, app_nil_r in P.
    cbn [app] in P. rewrite VA, V in P. cbv zeta in P. destruct P as [((R & S) & sg & E & SH & _)|(NR & E & _)]; rewrite E; cbn [r_ret r_out r_ill Z.eqb].
    + exists sg. split; [reflexivity|]. unfold lax_numbers. apply Z.ltb_lt in R, S. rewrite R, S. exact SH.
    + rewrite compact_zero. exists (repeat 0 64). split; [reflexivity|]. replace (lax_numbers cr cs) with (0, 0); [exact sig_zero|]. unfold lax_numbers.
      destruct (be_val cr <? n) eqn:R; [|reflexivity]. destruct (be_val cs <? n) eqn:S; [|reflexivity]. exfalso. apply NR. split; now apply Z.ltb_lt.
Qed.
Definition zfirst : res (option (list Z)) := mkres 1 0 (Some (repeat 0 64)).
Lemma body_fwd pre er es rest cr cs : byte_list (er ++ es ++ rest) -> lax_int cr er -> lax_int cs es ->
  exists sig, lax_body zfirst (pre ++ er ++ es ++ rest) (len pre) = Some (mkres 1 0 (Some sig)) /\
    sig_holds sig (fst (lax_numbers cr cs)) (snd (lax_numbers cr cs)).
Proof.
  intros B R S. unfold lax_body. destruct (lax_integer_fwd pre cr er (es ++ rest) B R) as (l1 & -> & ->).
  assert (B2 : byte_list (es ++ rest)) by (apply Forall_app in B; apply B).
  destruct (lax_integer_fwd (pre ++ 2 :: l1 ++ cr) cs es rest B2 S) as (l2 & -> & E2).
  replace (len (pre ++ 2 :: l1) + len cr) with (len (pre ++ 2 :: l1 ++ cr)) by (rewrite !app_length; cbn [length]; rewrite app_length; lia).
  replace (pre ++ (2 :: l1 ++ cr) ++ (2 :: l2 ++ cs) ++ rest) with ((pre ++ 2 :: l1 ++ cr) ++ (2 :: l2 ++ cs) ++ rest) by (rewrite <- !app_assoc; reflexivity).
  rewrite E2.
  assert (Bcr : byte_list cr). { apply Forall_app in B as [B _]. inversion B; subst. now apply Forall_app in H2. }
  assert (Bcs : byte_list cs). { apply Forall_app in B2 as [B2 _]. inversion B2; subst. now apply Forall_app in H2. }
  pose proof (finish_ok (pre ++ 2 :: l1) cr (2 :: l2) cs rest 1 (repeat 0 64) Bcr Bcs) as (sig & F & SH). exists sig. split; [|exact SH].
  rewrite <- F. f_equal.
  - rewrite <- ?app_assoc. cbn [app]. rewrite <- ?app_assoc. cbn [app]. rewrite <- ?app_assoc. reflexivity.
  - rewrite <- ?app_assoc. cbn [app]. rewrite <- ?app_assoc. reflexivity.
Qed.
Lemma body_bwd pre rest : byte_list rest ->
  lax_body zfirst (pre ++ rest) (len pre) = Some (mkres 0 0 (Some (repeat 0 64))) \/
  exists cr cs er es rest', lax_int cr er /\ lax_int cs es /\ rest = er ++ es ++ rest'.
Proof.
  intro B. unfold lax_body. destruct (lax_integer_bwd pre rest B) as [->|(l1 & cr & r1 & -> & I1 & ->)]; [left; reflexivity|].
  replace (len (pre ++ 2 :: l1) + len cr) with (len (pre ++ 2 :: l1 ++ cr)) by (rewrite !app_length; cbn [length]; rewrite app_length; lia).
  replace (pre ++ 2 :: l1 ++ cr ++ r1) with ((pre ++ 2 :: l1 ++ cr) ++ r1) by (rewrite <- !app_assoc; cbn [app]; rewrite <- !app_assoc; reflexivity).
  assert (B1 : byte_list r1). { inversion B; subst. apply Forall_app in H2 as [_ H2]. now apply Forall_app in H2. }
  destruct (lax_integer_bwd (pre ++ 2 :: l1 ++ cr) r1 B1) as [->|(l2 & cs & r2 & -> & I2 & ->)]; [left; reflexivity|].
  right. exists cr, cs, (2 :: l1 ++ cr), (2 :: l2 ++ cs), r2. split; [exact I1|]. split; [exact I2|]. cbn [app]. rewrite <- !app_assoc. reflexivity.
Qed.
Lemma any_length_cases h : lax_any_length h -> exists b ds, h = b :: ds /\ ((0 <= b < 128 /\ ds = []) \/ (b = 128 + len ds /\ len ds < 128)).
Proof. intros [(b & B & ->)|(ds & L & ->)]; [exists b, []; auto|exists (128 + len ds), ds; auto]. Qed.
Lemma lax_parse_fwd sig0 input cr cs : byte_list input -> lax_signature cr cs input ->
  exists sig, ecdsa_signature_parse_der_lax sig0 input = Some (mkres 1 0 (Some sig)) /\ sig_holds sig (fst (lax_numbers cr cs)) (snd (lax_numbers cr cs)).
Proof.
  intros B (h & er & es & rest & H & R & S & ->). rewrite lax_parse_eq, compact_zero. fold zfirst.
  destruct (any_length_cases h H) as (b & ds & -> & C). cbv zeta. cbn [app].
  set (tl := er ++ es ++ rest) in *. assert (BT : byte_list tl) by (apply byte_list_cons in B as [_ B]; apply byte_list_cons in B as [_ B]; apply Forall_app in B; apply B).
  assert (Bb : 0 <= b < 256) by lia.
  assert (RD0 : rd (0x30 :: b :: ds ++ tl) 0 = Some 0x30) by reflexivity.
  assert (RD1 : rd (0x30 :: b :: ds ++ tl) 1 = Some b) by (apply (rd_app0 [0x30] b (ds ++ tl))).
  rewrite RD0, RD1. cbn [length]. rewrite app_length.
  replace (0 =? _) with false by (symmetry; apply Z.eqb_neq; lia). replace (1 =? _) with false by (symmetry; apply Z.eqb_neq; lia).
  cbn [Z.eqb Pos.eqb negb]. destruct (land80 b Bb) as [E1 _]. rewrite E1. destruct C as [[C ->]|[C L]].
  - replace (b <? 128) with true by (symmetry; apply Z.ltb_lt; lia). cbn [negb andb app].
    destruct (body_fwd [0x30; b] er es rest cr cs BT R S) as (sig & E & SH). exists sig. split; [exact E|exact SH].
  - replace (b <? 128) with false by (symmetry; apply Z.ltb_ge; lia). cbn [negb andb]. rewrite gtb_ltb.
    replace (_ <? b - 128) with false by (symmetry; apply Z.ltb_ge; lia).
    destruct (body_fwd (0x30 :: b :: ds) er es rest cr cs BT R S) as (sig & E & SH). exists sig. split; [|exact SH]. rewrite <- E. f_equal. cbn [length]. lia.
Qed.
Lemma lax_parse_bwd sig0 input : byte_list input ->
  ecdsa_signature_parse_der_lax sig0 input = Some (mkres 0 0 (Some (repeat 0 64))) \/ exists cr cs, lax_signature cr cs input.
Proof.
  intros B. rewrite lax_parse_eq, compact_zero. fold zfirst. cbv zeta. destruct input as [|t input]; [left; reflexivity|].
  change (rd (t :: input) 0) with (Some t). replace (0 =? _) with false by (symmetry; apply Z.eqb_neq; cbn [length]; lia).
  destruct (t =? 0x30) eqn:QT; [|left; reflexivity]. apply Z.eqb_eq in QT. subst t. cbn [negb]. destruct input as [|b r]; [left; reflexivity|].
  replace (1 =? _) with false by (symmetry; apply Z.eqb_neq; cbn [length]; lia). rewrite (rd_app0 [0x30] b r : rd (0x30 :: b :: r) 1 = Some b).
  apply byte_list_cons in B as [_ B]. apply byte_list_cons in B as [Bb Br]. destruct (land80 b Bb) as [E1 _]. rewrite E1. destruct (b <? 128) eqn:Q0; cbn [negb andb].
  - apply Z.ltb_lt in Q0. destruct (body_bwd [0x30; b] r Br) as [E|(cr & cs & er & es & rest & R & S & ->)]; [left; exact E|]. right. exists cr, cs, [b], er, es, rest.
    split; [left; exists b; split; [lia|reflexivity]|]. split; [exact R|]. split; [exact S|reflexivity].
  - apply Z.ltb_ge in Q0. rewrite gtb_ltb. destruct (_ <? b - 128) eqn:Q1; [left; reflexivity|]. apply Z.ltb_ge in Q1. cbn [length] in Q1.
    destruct (app_split r (b - 128) ltac:(lia)) as (ds & r' & -> & L). apply Forall_app in Br as [_ Br].
    replace (2 + (b - 128)) with (len (0x30 :: b :: ds)) by (cbn [length]; lia). change (0x30 :: b :: ds ++ r') with ((0x30 :: b :: ds) ++ r').
    destruct (body_bwd (0x30 :: b :: ds) r' Br) as [E|(cr & cs & er & es & rest & R & S & ->)]; [left; exact E|]. right. exists cr, cs, (b :: ds), er, es, rest.
    split; [right; exists ds; split; [lia|f_equal; lia]|]. split; [exact R|]. split; [exact S|reflexivity].
Qed.

Theorem prop_lax_accept init input : byte_list input ->
  (exists cr cs sig, lax_signature cr cs input /\ sig_holds sig (fst (lax_numbers cr cs)) (snd (lax_numbers cr cs)) /\
     ecdsa_signature_parse_der_lax init input = Some (mkres 1 0 (Some sig))) \/
  ((forall cr cs, ~ lax_signature cr cs input) /\ ecdsa_signature_parse_der_lax init input = Some (mkres 0 0 (Some (repeat 0 64)))).
Proof.
  intro B. destruct (lax_parse_bwd init input B) as [E|(cr & cs & D)].
  - right. split; [|exact E]. intros cr cs D. destruct (lax_parse_fwd init input cr cs B D) as (sig & E' & _). rewrite E in E'. discriminate.
  - left. destruct (lax_parse_fwd init input cr cs B D) as (sig & E & S). exists cr, cs, sig. repeat (split; [assumption|]). exact E.
Qed.
Lemma prop_lax_value init input cr cs : byte_list input -> lax_signature cr cs input ->
  exists sig, sig_holds sig (fst (lax_numbers cr cs)) (snd (lax_numbers cr cs)) /\ ecdsa_signature_parse_der_lax init input = Some (mkres 1 0 (Some sig)).
Proof. intros B D. destruct (lax_parse_fwd init input cr cs B D) as (sig & E & S). now exists sig. Qed.
Lemma prop_lax_invalid init input sig ret msg pk Q : byte_list input -> ecdsa_signature_parse_der_lax init input = Some (mkres ret 0 (Some sig)) ->
  (ret = 0 \/ exists cr cs, lax_signature cr cs input /\ (~ 1 <= be_val cr < n \/ ~ 1 <= be_val cs < n)) ->
  bytes_n 32 msg -> pubkey_holds pk Q -> ecdsa_verify (Some sig) (Some msg) (Some pk) = mkres 0 0 tt.
Proof.
  intros B E [->|(cr & cs & D & O)] M P.
  - destruct (prop_lax_accept init input B) as [(cr & cs & s & _ & _ & E')|(_ & E')]; [congruence|]. assert (sig = repeat 0 64) as -> by congruence. exact (zero_sig_rejected msg pk Q M P).
  - destruct (prop_lax_value init input cr cs B D) as (s & S & E'). assert (s = sig) as -> by congruence.
    destruct (ecdsa_verify_ok sig _ _ msg pk Q S M P) as [(_ & _ & V)|(V & _)]; [|exact V]. exfalso. destruct V as (V1 & V2 & _).
    unfold lax_numbers in V1, V2. destruct (be_val cr <? n) eqn:Q1; cbn [andb fst snd] in V1, V2; [|lia]. destruct (be_val cs <? n) eqn:Q2; cbn [fst snd] in V1, V2; [|lia].
    apply Z.ltb_lt in Q1, Q2. lia.
Qed.
(** Strict DER is a special case. *)
Lemma der_lax_length l k : der_length l k -> k < 2 ^ 56 -> lax_length l k.
Proof.
  intros [H|(K & d & ds & _ & B & V & L & ->)] H56; [left; exact H|]. right. exists (d :: ds). split; [exact B|]. split; [lia|]. split; [exact V|]. now split.
Qed.
Lemma der_is_lax cr cs enc : der_signature cr cs enc -> len enc < 2 ^ 56 -> lax_signature cr cs enc.
Proof.
  intros (_ & _ & er & es & (l1 & L1 & ->) & (l2 & L2 & ->) & (h & H & ->)) LE. exists h, (2 :: l1 ++ cr), (2 :: l2 ++ cs), [].
  cbn [length] in LE. rewrite !app_length in LE. cbn [length] in LE. rewrite !app_length in LE.
  split; [|split; [|split]].
  - destruct H as [[K ->]|(K & d & ds & _ & B & V & L & ->)]; [left; eexists; split; [exact K|reflexivity]|]. right. exists (d :: ds). split; [lia|reflexivity].
  - exists l1. split; [apply der_lax_length; [exact L1|lia]|reflexivity].
  - exists l2. split; [apply der_lax_length; [exact L2|lia]|reflexivity].
  - now rewrite app_nil_r.
Qed.
Lemma prop_lax_extends init init' input cr cs : byte_list input -> len input < 2 ^ 56 -> der_signature cr cs input ->
  exists sig sig', ecdsa_signature_parse_der (Some init) (Some input) = Some (mkres 1 0 (Some sig)) /\
    ecdsa_signature_parse_der_lax init' input = Some (mkres 1 0 (Some sig')) /\
    (0 <= der_int_value cr < n -> 0 <= der_int_value cs < n -> sig' = sig).
Proof.
  intros B L D. destruct (prop_der_value init input cr cs B ltac:(lia) D) as (sig & S & E).
  destruct (prop_lax_value init' input cr cs B (der_is_lax cr cs input D L)) as (sig' & S' & E'). exists sig, sig'. split; [exact E|]. split; [exact E'|].
  intros R1 R2.
  assert (V : forall c, 0 <= der_int_value c < n -> der_int_contents c -> der_scalar c = be_val c /\ be_val c < n).
  { intros c R (Bc & NE & _). unfold der_scalar. replace ((0 <=? der_int_value c) && (der_int_value c <? n)) with true by (symmetry; apply andb_true_iff; rewrite Z.leb_le, Z.ltb_lt; exact R).
    destruct c as [|b c]; [congruence|]. cbn [der_int_value] in *. destruct (b <? 128) eqn:Q0; [lia|]. exfalso. pose proof (be_val_range _ Bc). lia. }
  destruct D as (D1 & D2 & _). destruct (V cr R1 D1) as [V1 W1]. destruct (V cs R2 D2) as [V2 W2]. rewrite V1, V2 in S.
  unfold lax_numbers in S'. apply Z.ltb_lt in W1, W2. rewrite W1, W2 in S'. cbn [andb fst snd] in S'. destruct S as (_ & _ & ->), S' as (_ & _ & ->). reflexivity.
Qed.
