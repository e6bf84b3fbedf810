(** binary64 rounding of small integers is exact (used by the numeric properties). *)
From Coq Require Import ZArith Lia.
From Coq Require Import Floats.SpecFloat.
From Verif Require Import SpecNum.
Open Scope Z_scope.


Lemma digits2_lower : forall p, 2 ^ (Zpos (digits2_pos p) - 1) <= Zpos p.
Proof.
  induction p; simpl digits2_pos; rewrite ?Pos2Z.inj_succ.
  - replace (Z.succ (Zpos (digits2_pos p)) - 1) with (Z.succ (Zpos (digits2_pos p) - 1)) by lia.
    rewrite Z.pow_succ_r by lia. lia.
  - replace (Z.succ (Zpos (digits2_pos p)) - 1) with (Z.succ (Zpos (digits2_pos p) - 1)) by lia.
    rewrite Z.pow_succ_r by lia. lia.
  - simpl. lia.
Qed.

Lemma digits2_small : forall p k, 0 <= k -> Zpos p < 2 ^ k -> Zpos (digits2_pos p) <= k.
Proof.
  intros p k Hk H. pose proof (digits2_lower p).
  destruct (Z_le_gt_dec (Zpos (digits2_pos p)) k); auto.
  assert (2 ^ k <= 2 ^ (Zpos (digits2_pos p) - 1)) by (apply Z.pow_le_mono_r; lia). lia.
Qed.

Lemma digits2_shift : forall n p, digits2_pos (shift_pos n p) = (digits2_pos p + n)%positive.
Proof.
  intros n p. unfold shift_pos. revert n.
  apply Pos.peano_ind.
  - simpl. lia.
  - intros n IH. rewrite Pos.iter_succ. simpl digits2_pos. rewrite IH. lia.
Qed.

Lemma binary_round_exact : forall s p, Zpos p < 2 ^ 53 ->
  exists m e, binary_round 53 1024 s p 0 = S754_finite s m e /\ e <= 0 /\ Zpos m = Zpos p * 2 ^ (- e).
Proof.
  intros s p Hp.
  assert (Hd : Zpos (digits2_pos p) <= 53) by (apply digits2_small; lia).
  assert (Hd1 : 1 <= Zpos (digits2_pos p)) by lia.
  unfold binary_round.
  assert (Hf : fexp 53 1024 (Zpos (digits2_pos p) + 0) = Zpos (digits2_pos p) - 53).
  { unfold fexp, SpecFloat.emin. lia. }
  rewrite Hf. unfold shl_align.
  assert (Haux : forall q e, Zpos (digits2_pos q) = 53 -> -1074 <= e <= 0 ->
     binary_round_aux 53 1024 s (Zpos q) e loc_Exact = S754_finite s q e).
  { intros q e Hq He.
    assert (Hs : shr_fexp 53 1024 (Zpos q) e loc_Exact = (Build_shr_record (Zpos q) false false, e)).
    { unfold shr_fexp, Zdigits2. rewrite Hq.
      assert (Hz : fexp 53 1024 (53 + e) - e = 0) by (unfold fexp, SpecFloat.emin; lia).
      rewrite Hz. reflexivity. }
    unfold binary_round_aux. rewrite Hs. cbv beta iota.
    change (round_nearest_even (shr_m {| shr_m := Zpos q; shr_r := false; shr_s := false |})
      (loc_of_shr_record {| shr_m := Zpos q; shr_r := false; shr_s := false |})) with (Zpos q).
    rewrite Hs. cbv beta iota. 
    change (shr_m {| shr_m := Zpos q; shr_r := false; shr_s := false |}) with (Zpos q).
    cbv iota. replace (Zle_bool e (1024 - 53)) with true; auto.
    symmetry. apply Zle_imp_le_bool. lia. }
  destruct (Zpos (digits2_pos p) - 53 - 0) as [|q|q] eqn:E.
  - exists p, 0. rewrite Haux by lia. repeat split; lia.
  - lia.
  - exists (shift_pos q p), (Zpos (digits2_pos p) - 53).
    rewrite Haux.
    + repeat split; try lia.
      rewrite shift_pos_correct. 
      replace (- (Zpos (digits2_pos p) - 53)) with (Zpos q) by lia.
      change (Zpower_pos 2 q) with (2 ^ Zpos q). lia.
    + rewrite digits2_shift. rewrite Pos2Z.inj_add. lia.
    + lia.
Qed.

Lemma normalize_exact : forall z sz, Z.abs z <= 2 ^ 53 ->
  float_is (binary_normalize 53 1024 z 0 sz) z.
Proof.
  intros z sz Hz. destruct z as [|p|p]; simpl binary_normalize.
  - reflexivity.
  - destruct (Z.eq_dec (Zpos p) (2^53)) as [He|He].
    + injection He as He. rewrite He. vm_compute. reflexivity.
    + destruct (binary_round_exact false p) as [m [e [H1 [H2 H3]]]]; [lia|].
      rewrite H1. unfold float_is. destruct (0 <=? e) eqn:E0.
      * assert (e = 0) by lia. subst. rewrite H3. simpl. lia.
      * lia.
  - destruct (Z.eq_dec (Zpos p) (2^53)) as [He|He].
    + injection He as He. rewrite He. vm_compute. reflexivity.
    + destruct (binary_round_exact true p) as [m [e [H1 [H2 H3]]]]; [lia|].
      rewrite H1. unfold float_is. change (Zneg m) with (- Zpos m). rewrite H3.
      change (Zneg p) with (- Zpos p). destruct (0 <=? e) eqn:E0.
      * assert (e = 0) by lia. subst. simpl. lia.
      * lia.
Qed.
