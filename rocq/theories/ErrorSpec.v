(** compute_error (decimal_to_binary.h:72-94): a 64-bit truncation of w * 10^q. *)
From Verif Require Import Machine Config Chars Format FastTable DecToBin DigitComp WordLemmas EiselTable
  EiselLemire Rounding ComputeFloat RoundSpec.
From Coq Require Import QArith Lqa.
Open Scope Z_scope.

Theorem compute_error_spec c t q w : 0 < w < 2 ^ 64 ->
  smallest_power_of_ten t <= q <= largest_power_of_ten t ->
  exists m p2, compute_error c t q w = Ok {| am_mantissa := m; am_power2 := p2 + invalid_am_bias |} /\
    2 ^ 63 <= m < 2 ^ 64 /\ -3000 <= p2 <= 3000 /\
    let F := m / 2 ^ (63 - mant_bits t) in
    ([F]q * qpow 2 (rg t p2 - 1) <= units t (dec w q))%Q /\
    (units t (dec w q) < [F + 1]q * qpow 2 (rg t p2 - 1))%Q.
Proof.
  intros Hw Hqt. unfold compute_error.
  pose proof (mb_range t) as Hmb. pose proof (pow10_range t) as Hpr.
  assert (Hq : -342 <= q <= 308) by lia.
  rewrite leading_zeroes_spec, bind_Ok by lia.
  pose proof (lz_normalise w ltac:(lia)) as [Hlz Hw']. set (lz := 63 - Z.log2 w) in *.
  rewrite shl_small, bind_Ok by lia.
  destruct (table_entry q Hq) as (Th & Tl & N1 & N2 & HE).
  pose proof (eo_Th _ _ _ HE) as BTh. pose proof (eo_Tl _ _ _ HE) as BTl.
  destruct (cpa_spec c (mant_bits t) q (w * 2 ^ lz) Th Tl Hmb Hq ltac:(lia) ltac:(lia) BTl N1 N2)
    as (lo & hi & EC & Hlo & Hhi & HP).
  rewrite EC, bind_Ok.
  pose proof (core_hi _ _ _ _ _ _ _ Hmb Hq Hw' HE Hlo Hhi HP) as Hhi62.
  pose proof (core_ub _ _ _ _ _ _ _ Hmb Hq Hw' HE Hlo Hhi HP) as Hub.
  pose proof (core_bounds _ _ _ _ _ _ _ Hmb Hq Hw' HE Hlo Hhi HP) as HB.
  cbv zeta in *. unfold compute_error_scaled.
  rewrite (Z.shiftr_div_pow2 hi 63) by lia.
  set (ub := hi / 2 ^ 63) in *.
  set (K := hi / 2 ^ (61 - mant_bits t + ub)) in *.
  destruct (te_pw_power q Hq) as [EP Bpw]. rewrite EP.
  assert (Bme : -1100 <= min_exp t <= 0) by (destruct t; cbn; lia).
  assert (EX : Z.lxor ub 1 = 1 - ub).
  { assert (C : ub = 0 \/ ub = 1) by lia. destruct C as [-> | ->]; reflexivity. }
  rewrite EX.
  assert (HM : 2 ^ 63 <= hi * 2 ^ (1 - ub) < 2 ^ 64).
  { pose proof (Z.div_mod hi (2 ^ 63) ltac:(lia)). fold ub in H.
    pose proof (Z.mod_pos_bound hi (2 ^ 63) ltac:(lia)).
    clear - H H0 Hub Hhi62 Hhi. clearbody ub.
    assert (C : ub = 0 \/ ub = 1) by lia. destruct C as [-> | ->]; [change (2 ^ (1 - 0)) with 2|change (2 ^ (1 - 1)) with 1]; lia. }
  rewrite shl_small by lia. rewrite !bind_Ok.
  unfold invalid_am_bias. rewrite chk32_Ok by lia. rewrite bind_Ok.
  set (p2 := te_pw q + ub - lz - min_exp t).
  exists (hi * 2 ^ (1 - ub)), (p2 + mant_bits t - 63).
  split.
  { f_equal. f_equal. unfold p2. lia. }
  split; [exact HM|]. split; [unfold p2; lia|].
  assert (EG : rg t (p2 + mant_bits t - 63) = p2) by (unfold rg; lia).
  rewrite EG. cbv zeta.
  assert (EF : hi * 2 ^ (1 - ub) / 2 ^ (63 - mant_bits t) = K / 2).
  { unfold K. rewrite Z.div_div by (first [apply Z.pow_nonzero; lia|lia]).
    rewrite (Z.mul_comm _ 2), <- pow2_S by lia.
    replace (63 - mant_bits t) with ((61 - mant_bits t + ub + 1) + (1 - ub)) by lia.
    rewrite (Z.pow_add_r 2 (61 - mant_bits t + ub + 1)) by lia.
    rewrite Z.div_mul_cancel_r; [reflexivity| |]; apply Z.pow_nonzero; lia. }
  rewrite EF.
  assert (Hs : 0 <= 61 - mant_bits t + ub + 128) by lia.
  pose proof (scaled_bounds t q w lz ub K Hs HB) as [ZL ZU].
  pose proof (scaled_units t q w lz ub (proj1 Hlz)) as ZY. cbv zeta in ZL, ZU, ZY.
  fold p2 in ZY.
  set (z := ([w * 2 ^ lz]q * qpow 5 q * qpow 2 (te_E q) * qpow 2 (- (61 - mant_bits t + ub + 128)))%Q) in *.
  set (y := units t (dec w q)) in *.
  pose proof (qpow_pos 2 (p2 - 1) ltac:(lia)) as PA. set (a := qpow 2 (p2 - 1)) in *.
  pose proof (Z.div_mod K 2 ltac:(lia)) as DM. pose proof (Z.mod_pos_bound K 2 ltac:(lia)) as MB.
  set (F := K / 2) in *.
  assert (FL : (2 * [F]q <= z)%Q).
  { eapply Qle_trans; [|exact ZL]. change 2%Q with [2]q. rewrite <- inject_Z_mult. apply -> q_le. lia. }
  assert (FU : (z < 2 * [F + 1]q)%Q).
  { eapply Qlt_le_trans; [exact ZU|]. change 2%Q with [2]q. rewrite <- inject_Z_mult. apply -> q_le. lia. }
  clearbody y z a F. clear - FL FU PA ZY.
  split.
  - apply Qmult_le_l with 2%Q; [reflexivity|]. rewrite ZY, Qmult_assoc. apply Qmult_le_r; assumption.
  - apply Qmult_lt_l with 2%Q; [reflexivity|]. rewrite ZY, Qmult_assoc. apply Qmult_lt_r; assumption.
Qed.
