(** Scratch spaces: invariant over histories (C38). *)
Require Import ZArith List Bool Lia.
From Verif Require Import Word ScratchModel SpecScratch.
Import ListNotations.
Local Open Scope Z_scope.

Notation B64 := 18446744073709551616 (only parsing).
Section Align.
Variable align : Z.
Hypothesis AL : alignment align.
Lemma al_pos : 0 < align.
Proof. destruct AL as (k & K & ->). apply Z.pow_pos_nonneg; lia. Qed.
Lemma al_small : align <= 2147483648.
Proof. destruct AL as (k & K & ->). change 2147483648 with (2 ^ 31). apply Z.pow_le_mono_r; lia. Qed.
Lemma al_div : exists q, 2 ^ 64 = q * align.
Proof. destruct AL as (k & K & ->). exists (2 ^ (64 - k)). rewrite <- Z.pow_add_r by lia. f_equal. lia. Qed.
(** Rounding: up to the next multiple, 0 if that is 2^64. *)
Lemma round_ok size : 0 <= size < 2 ^ 64 -> exists q, let up := q * align in
  size <= up < size + align /\ round_to_align align size = (if up =? 2 ^ 64 then 0 else up) /\ up <= 2 ^ 64.
Proof.
  intros S. pose proof al_pos as P. pose proof al_small as Q. destruct al_div as [m M]. unfold round_to_align.
  destruct (Z.eq_dec size 0) as [->|N].
  - exists 0. split; [lia|]. split; [|lia]. change (0 * align =? 2 ^ 64) with false. cbv iota.
    change (w64 (0 - 1)) with (2 ^ 64 - 1). assert (E : 1 + (2 ^ 64 - 1) / align = m).
    { replace ((2 ^ 64 - 1) / align) with (m - 1); [lia|]. apply Z.div_unique with (r := align - 1); [lia|]. rewrite M. ring. }
    rewrite E. assert (0 < m) by nia. assert (m <= 2 ^ 64) by nia. unfold w64. rewrite Zmult_mod_idemp_l. rewrite <- M. rewrite Z.mod_same by discriminate. reflexivity.
  - exists (1 + (size - 1) / align). cbv zeta. pose proof (Z.div_mod (size - 1) align ltac:(lia)) as D. pose proof (Z.mod_pos_bound (size - 1) align ltac:(lia)) as R.
    rewrite (w64_id (size - 1)) by lia. set (q := (size - 1) / align) in *. assert (0 <= q) by (apply Z.div_pos; lia).
    assert (UP : size <= (1 + q) * align < size + align) by lia. split; [exact UP|].
    assert (LE : (1 + q) * align <= 2 ^ 64). { rewrite M. assert (1 + q <= m); [|nia]. assert ((1 + q) * align < (m + 1) * align) by nia. nia. }
    split; [|exact LE]. unfold w64. rewrite Zmult_mod_idemp_l. destruct (Z.eqb_spec ((1 + q) * align) (2 ^ 64)) as [E|E]; [rewrite E; now apply Z.mod_same|]. apply Z.mod_small. lia.
Qed.
(** As used in alloc: the check of the wrap is right. *)
Lemma round_cases size : 0 <= size < 2 ^ 64 ->
  (round_to_align align size < size /\ 2 ^ 64 < size + align) \/
  (size <= round_to_align align size < size + align /\ (align | round_to_align align size) /\ round_to_align align size < 2 ^ 64).
Proof.
  intros S. pose proof al_pos as P. destruct (round_ok size S) as (q & U & E & L). rewrite E. destruct (Z.eqb_spec (q * align) (2 ^ 64)) as [F|F].
  - left. rewrite F in U. pose proof al_small. change (2 ^ 64) with B64 in *. lia.
  - right. split; [exact U|]. split; [apply Z.divide_factor_r|lia].
Qed.
Lemma base_ok : exists b, round_to_align align sizeof_scratch = b /\ 32 <= b <= 2147483680 /\ (align | b).
Proof.
  eexists. split; [reflexivity|]. pose proof al_pos as P. pose proof al_small. unfold sizeof_scratch. destruct (round_cases 32 ltac:(lia)) as [(A & B)|(A & B & C)].
  - change (2 ^ 64) with B64 in *. lia.
  - split; [lia|exact B].
Qed.

(** ** Invariant *)
(** Regions stacked below a bound, in order, without overlap. *)
Fixpoint stacked (data top : Z) (live : list (Z * Z)) : Prop :=
  match live with
  | [] => 0 <= top
  | (p, s) :: rest => exists off, p = data + off /\ (align | off) /\ 0 <= s /\ off + s <= top /\ 0 <= off /\ stacked data off rest
  end.
Lemma stacked_le data top top' live : stacked data top live -> top <= top' -> stacked data top' live.
Proof. intros H L. destruct live as [|[p s] rest]; cbn [stacked] in *; [lia|]. destruct H as (off & A & B & C & D & E & F). exists off. repeat split; try assumption. lia. Qed.
Lemma stacked_in data top live r : stacked data top live -> In r live -> exists off, fst r = data + off /\ (align | off) /\ 0 <= snd r /\ off + snd r <= top /\ 0 <= off.
Proof.
  revert top. induction live as [|[p s] rest IH]; intros top H I; [destruct I|]. destruct H as (off & A & B & C & D & E & F). destruct I as [<-|I].
  - exists off. cbn [fst snd]. tauto.
  - destruct (IH off F I) as (o & G). exists o. repeat split; try tauto; try apply G. lia.
Qed.
Lemma stacked_disjoint data live : forall top, stacked data top live -> ForallOrdPairs disjoint live.
Proof.
  induction live as [|[p s] rest IH]; intros top H; [constructor|]. destruct H as (off & A & B & C & D & E & F). constructor; [|exact (IH _ F)].
  apply Forall_forall. intros r I a W V. destruct (stacked_in _ _ _ _ F I) as (o & G1 & G2 & G3 & G4 & G5). unfold within in *. cbn [fst snd] in *. lia.
Qed.
Definition obj_ok (s : scratch) (data max : Z) : Prop :=
  sc_magic s = scratch_magic /\ sc_data s = data /\ sc_max s = max /\ 0 <= sc_alloc s <= max /\ (align | sc_alloc s).
(** The marks: each is the alloc size of its object, below those after it. *)
Fixpoint marks_ok (data max top : Z) (marks : list (Z * (scratch * list (Z * Z)))) : Prop :=
  match marks with
  | [] => True
  | (cp, (s, live)) :: rest => cp = sc_alloc s /\ obj_ok s data max /\ cp <= top /\ stacked data cp live /\ marks_ok data max cp rest
  end.
Lemma marks_le data max top top' marks : marks_ok data max top marks -> top <= top' -> marks_ok data max top' marks.
Proof. destruct marks as [|[cp [s live]] rest]; cbn [marks_ok]; [auto|]. intros (A & B & C & D & E) L. repeat split; try tauto; try apply B. lia. Qed.
Lemma marks_nth data max : forall marks top k cp s live, marks_ok data max top marks -> nth_error marks k = Some (cp, (s, live)) ->
  cp = sc_alloc s /\ obj_ok s data max /\ cp <= top /\ stacked data cp live /\ marks_ok data max cp (skipn k marks).
Proof.
  induction marks as [|[cp0 [s0 live0]] rest IH]; intros top k cp s live H E; [destruct k; discriminate E|]. destruct H as (A & B & C & D & F). destruct k as [|k]; cbn [nth_error skipn] in *.
  - injection E as -> -> ->. split; [exact A|]. split; [exact B|]. split; [exact C|]. split; [exact D|]. cbn [marks_ok]. repeat split; try assumption; try apply B. lia.
  - destruct (IH cp0 k cp s live F E) as (G1 & G2 & G3 & G4 & G5). repeat split; try assumption; try apply G2. lia.
Qed.
Definition inv (max : Z) (c : caller) : Prop :=
  let w := c_space c in exists base data, sp_addr w + base = data /\ 32 <= base /\ 0 <= sp_addr w /\ sp_size w = base + max /\ data + max < 2 ^ 64 /\ 0 <= max /\ (align | data) /\
    obj_ok (sp_scratch w) data max /\ stacked data (sc_alloc (sp_scratch w)) (c_live c) /\ marks_ok data max (sc_alloc (sp_scratch w)) (c_marks c).
Lemma magic_t s : sc_magic s = scratch_magic -> magic_ok s = true.
Proof. intros E. unfold magic_ok. destruct (list_eq_dec Z.eq_dec (sc_magic s) scratch_magic); [reflexivity|contradiction]. Qed.
Lemma create_inv malloc mem size e w : malloc_ok align malloc -> 0 <= size -> size + align + 32 < 2 ^ 64 ->
  scratch_create align malloc mem size = Some (e, Some w) -> e = 0 /\ inv size (mkcaller w [] []).
Proof.
  intros M S0 S E. destruct base_ok as (b & Eb & Rb & Db). pose proof al_pos as P. unfold scratch_create in E. rewrite Eb in *. cbv zeta in E.
  assert (SB : b + size < 2 ^ 64).
  { unfold sizeof_scratch in Eb. destruct (round_cases 32 ltac:(split; [lia|reflexivity])) as [(A & B)|(A & B & C)]; lia. }
  rewrite (w64_id (b + size)) in E by lia. destruct (malloc (b + size)) as [addr|] eqn:Ma; [|discriminate E]. destruct (M _ _ Ma) as (M1 & M2 & M3).
  unfold memset0 in E. cbn [sp_addr sp_size] in E. unfold sizeof_scratch in E. replace (addr <=? addr) with true in E by (symmetry; apply Z.leb_le; lia).
  replace (addr + 32 <=? addr + (b + size)) with true in E by (symmetry; apply Z.leb_le; lia). cbn [orb andb Z.eqb] in E. injection E as <- <-. split; [reflexivity|].
  exists b, (addr + b). cbn [c_space sp_addr sp_size sp_scratch c_live c_marks]. rewrite (w64_id (addr + b)) by lia. unfold obj_ok. cbn [sc_magic sc_data sc_alloc sc_max stacked marks_ok].
  repeat split; try lia; try reflexivity. { now apply Z.divide_add_r. } apply Z.divide_0_r.
Qed.
(** Allocation in a good state. *)
Lemma alloc_inv max c size : inv max c -> 0 <= size < 2 ^ 64 -> let w := c_space c in let s := sp_scratch w in
  (scratch_alloc align w size = Some (0, None, w) /\ exists r, size <= r < size + align /\ (align | r) /\ max - sc_alloc s < r) \/
  exists p r mem, scratch_alloc align w size = Some (0, Some p, mkspace (mkscratch (sc_magic s) (sc_data s) (sc_alloc s + r) (sc_max s)) (sp_addr w) (sp_size w) mem) /\
    p = sc_data s + sc_alloc s /\ size <= r < size + align /\ (align | r) /\ sc_alloc s + r <= max /\ (align | p) /\
    mem = fun a => if (p <=? a) && (a <? p + r) then 0 else sp_mem w a.
Proof.
  intros (base & data & I1 & I2 & I3 & I4 & I5 & I6 & I7 & O & ST & MK) S w s. fold w in I1, I3, I4, O, ST, MK. fold s in O, ST, MK. destruct O as (O1 & O2 & O3 & O4 & O5).
  unfold scratch_alloc. cbv zeta. fold s. destruct (round_cases size S) as [(A & B)|(A & B & C)].
  - left. replace (round_to_align align size <? size) with true by (symmetry; now apply Z.ltb_lt). split; [reflexivity|]. exists (2 ^ 64). repeat split; try lia. destruct al_div as [m M]. exists m. exact M.
  - replace (round_to_align align size <? size) with false by (symmetry; apply Z.ltb_ge; lia). rewrite (magic_t s O1). cbn [negb]. rewrite O3, O2.
    rewrite (w64_id (max - sc_alloc s)) by lia. rewrite Z.gtb_ltb. destruct (Z.ltb_spec (max - sc_alloc s) (round_to_align align size)) as [L|L].
    + left. split; [reflexivity|]. eexists. split; [exact A|]. split; [exact B|exact L].
    + right. set (r := round_to_align align size) in *. exists (data + sc_alloc s), r. destruct (Z.eq_dec (data + sc_alloc s) (2 ^ 64)) as [X|X].
      * exfalso. lia.
      * rewrite (w64_id (data + sc_alloc s)) by lia. rewrite (w64_id (sc_alloc s + r)) by lia. unfold memset0.
        assert (T : (r =? 0) || ((sp_addr w <=? data + sc_alloc s) && (data + sc_alloc s + r <=? sp_addr w + sp_size w)) = true).
        { apply orb_true_iff. right. apply andb_true_iff. rewrite !Z.leb_le. lia. }
        rewrite T. eexists. split; [reflexivity|]. repeat split; try assumption; try lia. now apply Z.divide_add_r.
Qed.
Lemma step_inv max c o : inv max c -> op_typed o -> exists c', do_op align c o = Some c' /\ inv max c'.
Proof.
  intros I T. destruct o as [size|a v| |k]; cbn [do_op op_typed] in *.
  - pose proof I as (base & data & I1 & I2 & I3 & I4 & I5 & I6 & I7 & O & ST & MK). destruct O as (O1 & O2 & O3 & O4 & O5).
    destruct (alloc_inv max c size I T) as [(E & _)|(p & r & mem & E & P1 & R1 & R2 & R3 & R4 & _)]; rewrite E; (eexists; split; [reflexivity|]).
    + destruct c. exact I.
    + exists base, data. cbn [c_space c_live c_marks sp_addr sp_size sp_scratch sc_magic sc_data sc_alloc sc_max]. unfold obj_ok. cbn [sc_magic sc_data sc_alloc sc_max].
      repeat split; try assumption; try lia.
      * now apply Z.divide_add_r.
      * cbn [stacked]. exists (sc_alloc (sp_scratch (c_space c))). repeat split; try assumption; lia.
      * apply (marks_le _ _ _ _ _ MK). pose proof al_pos. lia.
  - destruct (existsb _ _); (eexists; split; [reflexivity|]); exact I.
  - eexists. split; [reflexivity|]. destruct I as (base & data & I1 & I2 & I3 & I4 & I5 & I6 & I7 & O & ST & MK). exists base, data. cbn [c_space c_live c_marks].
    refine (conj I1 (conj I2 (conj I3 (conj I4 (conj I5 (conj I6 (conj I7 (conj O (conj ST _))))))))). cbn [marks_ok]. unfold scratch_checkpoint. rewrite (magic_t _ (proj1 O)). cbn [negb snd]. split; [reflexivity|]. split; [exact O|]. split; [lia|]. split; assumption.
  - destruct (nth_error (c_marks c) k) as [[cp [s live]]|] eqn:N; [|exists c; split; [reflexivity|exact I]]. eexists. split; [reflexivity|].
    destruct I as (base & data & I1 & I2 & I3 & I4 & I5 & I6 & I7 & O & ST & MK). destruct (marks_nth _ _ _ _ _ _ _ _ MK N) as (A & B & C & D & F).
    unfold scratch_apply_checkpoint. rewrite (magic_t _ (proj1 O)). cbn [negb]. replace (cp >? _) with false by (rewrite Z.gtb_ltb; symmetry; apply Z.ltb_ge; exact C).
    exists base, data. cbn [snd c_space c_live c_marks sp_addr sp_size sp_scratch sc_magic sc_data sc_alloc sc_max]. unfold obj_ok in *. cbn [sc_magic sc_data sc_alloc sc_max].
    destruct O as (O1 & O2 & O3 & O4 & O5). destruct B as (B1 & B2 & B3 & B4 & B5). repeat split; try assumption; try lia. rewrite A. exact B5.
Qed.
Lemma run_inv max ops : forall c, inv max c -> Forall op_typed ops -> exists c', do_ops align c ops = Some c' /\ inv max c'.
Proof.
  induction ops as [|o ops IH]; intros c I F; cbn [do_ops]; [exists c; auto|]. inversion F; subst. destruct (step_inv max c o I H1) as (c1 & E & I1). rewrite E. now apply IH.
Qed.
Lemma reached_inv size c : 0 <= size -> size + align + 32 < 2 ^ 64 -> reached align size c -> inv size c.
Proof.
  intros S0 S (malloc & mem & w & ops & M & E & F & R). destruct (create_inv malloc mem size 0 w M S0 S E) as [_ I]. destruct (run_inv size ops _ I F) as (c' & E' & I'). congruence.
Qed.
Lemma prop_alloc size c len : 0 <= size -> size + align + 32 < 2 ^ 64 -> reached align size c -> 0 <= len < 2 ^ 64 ->
  (scratch_alloc align (c_space c) len = Some (0, None, c_space c) /\ exists r, len <= r < len + align /\ (align | r) /\ left_over c < r) \/
  exists p w, scratch_alloc align (c_space c) len = Some (0, Some p, w) /\ len <= left_over c /\ (align | p) /\
    sp_addr (c_space c) + 32 <= p /\ p + len <= sp_addr (c_space c) + sp_size (c_space c) /\
    (forall a, within a (p, len) -> sp_mem w a = 0) /\
    (forall r, In r (c_live c) -> disjoint (p, len) r /\ forall a, within a r -> sp_mem w a = sp_mem (c_space c) a).
Proof.
  intros S0 S R L. pose proof (reached_inv size c S0 S R) as I. unfold left_over. pose proof I as (base & data & I1 & I2 & I3 & I4 & I5 & I6 & I7 & O & ST & MK). destruct O as (O1 & O2 & O3 & O4 & O5).
  rewrite O3. destruct (alloc_inv size c len I L) as [(E & r & F)|(p & r & mem & E & P1 & R1 & R2 & R3 & R4 & M)].
  - left. split; [exact E|]. exists r. exact F.
  - right. exists p. eexists. split; [exact E|]. cbn [sp_mem]. repeat split; try assumption; try lia.
    + intros a W. unfold within in W. cbn [fst snd] in W. rewrite M. replace ((p <=? a) && (a <? p + r)) with true by (symmetry; apply andb_true_iff; rewrite Z.leb_le, Z.ltb_lt; lia). reflexivity.
    + intros a W V. destruct (stacked_in _ _ _ _ ST H) as (o & G1 & G2 & G3 & G4 & G5). unfold within in *. cbn [fst snd] in *. lia.
    + intros a W. destruct (stacked_in _ _ _ _ ST H) as (o & G1 & G2 & G3 & G4 & G5). unfold within in W. rewrite M.
      replace ((p <=? a) && (a <? p + r)) with false; [reflexivity|]. symmetry. apply andb_false_iff. left. apply Z.leb_gt. lia.
Qed.
Lemma prop_live size c : 0 <= size -> size + align + 32 < 2 ^ 64 -> reached align size c ->
  ForallOrdPairs disjoint (c_live c) /\
  Forall (fun r => (align | fst r) /\ sp_addr (c_space c) + 32 <= fst r /\ fst r + snd r <= sp_addr (c_space c) + sp_size (c_space c)) (c_live c).
Proof.
  intros S0 S R. destruct (reached_inv size c S0 S R) as (base & data & I1 & I2 & I3 & I4 & I5 & I6 & I7 & O & ST & MK). destruct O as (O1 & O2 & O3 & O4 & O5).
  split; [exact (stacked_disjoint _ _ _ ST)|]. apply Forall_forall. intros r I. destruct (stacked_in _ _ _ _ ST I) as (o & G1 & G2 & G3 & G4 & G5). split; [rewrite G1; now apply Z.divide_add_r|]. lia.
Qed.
Lemma prop_no_ub size c ops : 0 <= size -> size + align + 32 < 2 ^ 64 -> reached align size c -> Forall op_typed ops -> exists c', do_ops align c ops = Some c'.
Proof. intros S0 S R F. destruct (run_inv size ops c (reached_inv size c S0 S R) F) as (c' & E & _). eauto. Qed.
Lemma prop_checkpoint size c k cp s live : 0 <= size -> size + align + 32 < 2 ^ 64 -> reached align size c -> nth_error (c_marks c) k = Some (cp, (s, live)) ->
  exists w, scratch_apply_checkpoint (c_space c) cp = (0, w) /\ sp_scratch w = s /\ sp_addr w = sp_addr (c_space c) /\ sp_size w = sp_size (c_space c) /\ sp_mem w = sp_mem (c_space c).
Proof.
  intros S0 S R N. destruct (reached_inv size c S0 S R) as (base & data & I1 & I2 & I3 & I4 & I5 & I6 & I7 & O & ST & MK).
  destruct (marks_nth _ _ _ _ _ _ _ _ MK N) as (A & B & C & D & F). unfold scratch_apply_checkpoint. rewrite (magic_t _ (proj1 O)). cbn [negb].
  replace (cp >? _) with false by (rewrite Z.gtb_ltb; symmetry; apply Z.ltb_ge; exact C). eexists. split; [reflexivity|]. cbn [sp_scratch sp_addr sp_size sp_mem]. split; [|auto].
  destruct O as (O1 & O2 & O3 & O4 & O5). destruct B as (B1 & B2 & B3 & B4 & B5). destruct s as [sm sd sa sx]. cbn [sc_magic sc_data sc_alloc sc_max] in *. congruence.
Qed.
Lemma alloc_many max : forall sizes c, inv max c -> Forall (fun x => 0 <= x < 2 ^ 64) sizes ->
  (total sizes = 0 \/ total sizes + Z.of_nat (length sizes) * (align - 1) <= max - sc_alloc (sp_scratch (c_space c))) ->
  exists ps, alloc_all align (c_space c) sizes = Some ps /\ length ps = length sizes /\ Forall (fun p => p <> None) ps.
Proof.
  induction sizes as [|x sizes IH]; intros c I F T; cbn [alloc_all]; [exists []; repeat split; constructor|]. inversion F as [|? ? Fx Fs]; subst.
  pose proof al_pos as P. assert (TP : 0 <= total sizes). { clear -Fs. induction Fs; cbn [total fold_right]; [lia|]. unfold total in *. lia. }
  change (total (x :: sizes)) with (x + total sizes) in T. rewrite (Nat2Z.inj_succ (length sizes) : Z.of_nat (length (x :: sizes)) = _) in T.
  pose proof I as (base & data & I1 & I2 & I3 & I4 & I5 & I6 & I7 & O & ST & MK). destruct O as (O1 & O2 & O3 & O4 & O5).
  destruct (step_inv max c (Alloc x) I Fx) as (c' & E1 & I'). cbn [do_op] in E1.
  destruct (alloc_inv max c x I Fx) as [(E & r & R1 & R2 & R3)|(p & r & mem & E & P1 & R1 & R2 & R3 & R4 & M)].
  - exfalso. destruct T as [T|T]; [|nia]. assert (x = 0) by lia. subst x. destruct R2 as [q ->]. assert (q = 0) by nia. nia.
  - rewrite E in *. injection E1 as <-. destruct (IH _ I' Fs) as (ps & E2 & L2 & F2).
    + cbn [c_space sp_scratch sc_alloc]. destruct T as [T|T]; [left; lia|right]. nia.
    + cbn [c_space] in E2. rewrite E2. exists (Some p :: ps). cbn [option_map length]. repeat split; [now rewrite L2|]. constructor; [discriminate|exact F2].
Qed.
Lemma prop_max_allocation size c objects m e : 0 <= size -> size + align + 32 < 2 ^ 64 -> reached align size c -> 0 <= objects < 2 ^ 64 ->
  scratch_max_allocation align (c_space c) objects = (e, m) -> e = 0 /\ 0 <= m <= left_over c /\
  forall sizes, Z.of_nat (length sizes) <= objects -> Forall (fun x => 0 <= x < 2 ^ 64) sizes -> total sizes <= m ->
    exists ps, alloc_all align (c_space c) sizes = Some ps /\ length ps = length sizes /\ Forall (fun p => p <> None) ps.
Proof.
  intros S0 S R OB E. pose proof (reached_inv size c S0 S R) as I. pose proof I as (base & data & I1 & I2 & I3 & I4 & I5 & I6 & I7 & O & ST & MK). destruct O as (O1 & O2 & O3 & O4 & O5).
  pose proof al_pos as P. unfold scratch_max_allocation in E. rewrite (magic_t _ O1) in E. cbn [negb] in E. unfold left_over. rewrite O3 in *. rewrite (w64_id (size - _)) in E by lia.
  assert (TZ : forall sizes, Forall (fun x => 0 <= x < 2 ^ 64) sizes -> 0 <= total sizes). { intros sizes F. induction F; cbn [total fold_right]; [lia|]. unfold total in *. lia. }
  destruct ((align >? 1) && (objects >? (2 ^ 64 - 1) / (align - 1))) eqn:G.
  - injection E as <- <-. split; [reflexivity|]. split; [lia|]. intros sizes _ F T. apply (alloc_many size _ c I F). left. pose proof (TZ _ F). lia.
  - assert (SM : 0 <= objects * (align - 1) < 2 ^ 64).
    { apply andb_false_iff in G. rewrite !Z.gtb_ltb, !Z.ltb_ge in G. destruct (Z.eq_dec align 1) as [X|N]; [rewrite X; lia|]. destruct G as [G|G]; [lia|].
      split; [nia|]. assert (objects * (align - 1) <= 2 ^ 64 - 1); [|lia]. pose proof (Z.mul_div_le (2 ^ 64 - 1) (align - 1) ltac:(lia)). nia. }
    rewrite (w64_id (objects * _)) in E by exact SM. destruct (Z.leb_spec (size - sc_alloc (sp_scratch (c_space c))) (objects * (align - 1))) as [L|L].
    + injection E as <- <-. split; [reflexivity|]. split; [lia|]. intros sizes _ F T. apply (alloc_many size _ c I F). left. pose proof (TZ _ F). lia.
    + rewrite w64_id in E by lia. injection E as <- <-. split; [reflexivity|]. split; [lia|]. intros sizes LE F T. apply (alloc_many size _ c I F). right. nia.
Qed.
Lemma create_ok malloc mem size : malloc_ok align malloc -> 0 <= size -> size + align + 32 < 2 ^ 64 ->
  exists request, scratch_create align malloc mem size = match malloc request with None => Some (1, None) | Some _ => scratch_create align malloc mem size end /\
    scratch_create align malloc mem size <> None /\ size + 32 <= request < 2 ^ 64.
Proof.
  intros M S0 S. destruct base_ok as (b & Eb & Rb & Db). pose proof al_pos as P. unfold scratch_create. rewrite Eb. cbv zeta.
  assert (SB : b + size < 2 ^ 64). { unfold sizeof_scratch in Eb. destruct (round_cases 32 ltac:(split; [lia|reflexivity])) as [(A & B)|(A & B & C)]; lia. }
  rewrite (w64_id (b + size)) by lia. exists (b + size). destruct (malloc (b + size)) as [addr|] eqn:Ma; [|repeat split; try lia; discriminate].
  unfold memset0. cbn [sp_addr sp_size]. unfold sizeof_scratch. replace (addr <=? addr) with true by (symmetry; apply Z.leb_le; lia).
  replace (addr + 32 <=? addr + (b + size)) with true by (symmetry; apply Z.leb_le; lia). cbn [orb andb Z.eqb]. repeat split; try lia; discriminate.
Qed.
End Align.

(** A history. *)
Definition w_hist : list op := [Alloc 100; Checkpoint; Alloc 17; Write 1250 7; Apply 0; Alloc 5; Alloc 2000].
Definition w_malloc (request : Z) : option Z := if request <? 2 ^ 32 then Some 1024 else None.
Lemma w_malloc_ok : malloc_ok 16 w_malloc.
Proof.
  intros request addr E. unfold w_malloc in E. destruct (Z.ltb_spec request (2 ^ 32)); [|discriminate E]. injection E as <-. change (2 ^ 32) with 4294967296 in *. change (2 ^ 64) with 18446744073709551616.
  split; [lia|]. split; [lia|]. exists 64. reflexivity.
Qed.
Lemma w_reached : exists c, reached 16 1000 c /\ c_live c = [(1024 + 32 + 112, 5); (1024 + 32, 100)] /\ length (c_marks c) = 1%nat.
Proof.
  eexists. split; [|split].
  - exists w_malloc, (fun _ => 7). eexists. exists w_hist. split; [exact w_malloc_ok|]. split; [reflexivity|]. split; [repeat constructor; discriminate|]. vm_compute. reflexivity.
  - reflexivity.
  - reflexivity.
Qed.
(** Near SIZE_MAX the size of the block wraps around. *)
Lemma prop_create_refuted : exists malloc mem size, malloc_ok 16 malloc /\ 0 <= size < 2 ^ 64 /\ scratch_create 16 malloc mem size = None.
Proof. exists w_malloc, (fun _ => 0), (2 ^ 64 - 16). split; [exact w_malloc_ok|]. split; [split; [discriminate|reflexivity]|]. reflexivity. Qed.
Lemma prop_bad_checkpoint w cp : sc_alloc (sp_scratch w) < cp -> scratch_apply_checkpoint w cp = (1, w).
Proof. intros H. unfold scratch_apply_checkpoint. destruct (negb _); [reflexivity|]. now replace (cp >? sc_alloc (sp_scratch w)) with true by (rewrite Z.gtb_ltb; symmetry; now apply Z.ltb_lt). Qed.
Lemma align_16 : alignment 16.
Proof. exists 4. split; [lia|reflexivity]. Qed.
