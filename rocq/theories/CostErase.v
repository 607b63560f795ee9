(** Forgetting the counts of Cost.v gives back the model: [erase (f_n x) = f x]. *)
From Verif Require Import Machine Config Tables Chars Format ParseNumber Bigint DecToBin DigitComp
  FromChars Ints Cost.
Open Scope Z_scope.

Lemma erase_lift {A} (m : res A) : erase (lift m) = m.
Proof. destruct m; reflexivity. Qed.
Lemma erase_pure {A} (x : A) : erase (pure x) = Ok x.
Proof. reflexivity. Qed.
Lemma erase_tick {A} (m : run A) : erase (tick m) = erase m.
Proof. destruct m as [[[x n]|]]; reflexivity. Qed.
Lemma erase_charge {A} n (x : A) : erase (charge n x) = Ok x.
Proof. reflexivity. Qed.
Lemma erase_seq {A B} (m : run A) (k : A -> run B) :
  erase (seq m k) = bind (erase m) (fun x => erase (k x)).
Proof.
  destruct m as [[[x n]|]]; cbn; [|reflexivity]. unfold erase. cbn.
  destruct (k x) as [[[y j]|]]; reflexivity.
Qed.
Lemma bind_cong {A B} (m1 m2 : res A) (k1 k2 : A -> res B) :
  m1 = m2 -> (forall x, k1 x = k2 x) -> bind m1 k1 = bind m2 k2.
Proof. intros -> H. destruct m2; cbn; [apply H|reflexivity]. Qed.

#[global] Hint Rewrite @erase_lift @erase_pure @erase_tick @erase_charge @erase_seq : er.

Ltac er :=
  repeat (autorewrite with er; cbn [bind]; autorewrite with er;
    first
    [ reflexivity
    | assumption
    | match goal with
      | H : forall _, _ |- _ => apply H
      | H : forall _, _ |- context [erase _] => rewrite H
      | |- _ = Ok (let '(_, _) := ?x in _) => destruct x
      | |- _ = Ok (if ?x then _ else _) => destruct x
      | |- Ok (match ?x with _ => _ end) = _ => destruct x
      | |- bind _ _ = bind _ _ => apply bind_cong; [|intros; cbv beta]
      | |- context [match ?x with _ => _ end] => is_var x; destruct x
      | |- erase (if ?b then _ else _) = _ => destruct b
      | |- erase (match ?x with _ => _ end) = _ => destruct x
      | |- bind (erase (if ?b then _ else _)) _ = _ => destruct b
      | |- _ = (let '(_, _) := ?x in _) => destruct x
      end ]).

Lemma erase_try_extend c v s : erase (try_extend_n c v s) = Ok (try_extend c v s).
Proof. unfold try_extend_n, try_extend. er. Qed.
#[global] Hint Rewrite erase_try_extend : er.
Lemma erase_try_resize c v n x : erase (try_resize_n c v n x) = Ok (try_resize c v n x).
Proof. unfold try_resize_n, try_resize. er. Qed.
#[global] Hint Rewrite erase_try_resize : er.
Lemma erase_nonzero v i : erase (nonzero_n v i) = Ok (nonzero v i).
Proof. unfold nonzero_n, nonzero. er. Qed.
#[global] Hint Rewrite erase_nonzero : er.
Lemma erase_normalize v : erase (normalize_n v) = Ok (normalize v).
Proof. unfold normalize_n, normalize. er. Qed.
#[global] Hint Rewrite erase_normalize : er.
Lemma erase_simd_loop fuel c p i : erase (simd_loop_n fuel c p i) = simd_loop fuel c p i.
Proof. revert c p i. induction fuel as [|? IH]; intros; cbn [simd_loop_n simd_loop]; er. Qed.
#[global] Hint Rewrite erase_simd_loop : er.
Lemma erase_swar_loop fuel c u p i : erase (swar_loop_n fuel c u p i) = swar_loop fuel c u p i.
Proof. revert c u p i. induction fuel as [|? IH]; intros; cbn [swar_loop_n swar_loop]; er. Qed.
#[global] Hint Rewrite erase_swar_loop : er.
Lemma erase_loop_parse_if_eight_digits c u p i : erase (loop_parse_if_eight_digits_n c u p i) = loop_parse_if_eight_digits c u p i.
Proof. unfold loop_parse_if_eight_digits_n, loop_parse_if_eight_digits. er. Qed.
#[global] Hint Rewrite erase_loop_parse_if_eight_digits : er.
Lemma erase_peel u p i k k' : (forall p i, erase (k p i) = k' p i) -> erase (peel_n u p i k) = peel u p i k'.
Proof. intros H. unfold peel_n, peel. er. Qed.

Lemma erase_int_digit_loop u p i : erase (int_digit_loop_n u p i) = int_digit_loop u p i.
Proof. revert u i. induction p as [|? ? IH]; intros; cbn [int_digit_loop_n int_digit_loop]; er. Qed.
#[global] Hint Rewrite erase_int_digit_loop : er.
Lemma erase_scan_integer u p : erase (scan_integer_n u p) = scan_integer u p.
Proof. unfold scan_integer_n, scan_integer. destruct p as [|ch p]; [reflexivity|]. er.
  repeat (apply erase_peel; intros). er. Qed.
#[global] Hint Rewrite erase_scan_integer : er.
Lemma erase_frac_digit_loop u p i : erase (frac_digit_loop_n u p i) = frac_digit_loop u p i.
Proof. revert u i. induction p as [|? ? IH]; intros; cbn [frac_digit_loop_n frac_digit_loop]; er. Qed.
#[global] Hint Rewrite erase_frac_digit_loop : er.
Lemma erase_exp_digit_loop u p e : erase (exp_digit_loop_n u p e) = exp_digit_loop u p e.
Proof. revert u e. induction p as [|? ? IH]; intros; cbn [exp_digit_loop_n exp_digit_loop]; er. Qed.
#[global] Hint Rewrite erase_exp_digit_loop : er.
Lemma erase_skip_leading dp p digit_count : erase (skip_leading_n dp p digit_count) = skip_leading dp p digit_count.
Proof. revert dp digit_count. induction p as [|? ? IH]; intros; cbn [skip_leading_n skip_leading]; er. Qed.
#[global] Hint Rewrite erase_skip_leading : er.
Lemma erase_nineteen_loop u p i : erase (nineteen_loop_n u p i) = nineteen_loop u p i.
Proof. revert u i. induction p as [|? ? IH]; intros; cbn [nineteen_loop_n nineteen_loop]; er. Qed.
#[global] Hint Rewrite erase_nineteen_loop : er.
Lemma erase_parse_exponent u fmt p exponent : erase (parse_exponent_n u fmt p exponent) = parse_exponent u fmt p exponent.
Proof. unfold parse_exponent_n, parse_exponent. er. Qed.
#[global] Hint Rewrite erase_parse_exponent : er.
Lemma erase_recompute u ip fp exp_number : erase (recompute_n u ip fp exp_number) = recompute u ip fp exp_number.
Proof. unfold recompute_n, recompute. er. Qed.
#[global] Hint Rewrite erase_recompute : er.
Lemma erase_parse_number_string c u bjf p o store_spans : erase (parse_number_string_n c u bjf p o store_spans) = parse_number_string c u bjf p o store_spans.
Proof. unfold parse_number_string_n, parse_number_string. er. Qed.
#[global] Hint Rewrite erase_parse_number_string : er.
Lemma erase_nan_payload p : erase (nan_payload_n p) = Ok (nan_payload p).
Proof. induction p as [|? ? IH]; cbn [nan_payload_n nan_payload]; er. Qed.
#[global] Hint Rewrite erase_nan_payload : er.
Lemma erase_parse_infnan c u t p fmt : erase (parse_infnan_n c u t p fmt) = parse_infnan c u t p fmt.
Proof. unfold parse_infnan_n, parse_infnan. er. Qed.
#[global] Hint Rewrite erase_parse_infnan : er.
Lemma erase_add_carry_loop c l carry : erase (add_carry_loop_n c l carry) = Ok (add_carry_loop c l carry).
Proof. revert c carry. induction l as [|? ? IH]; intros; cbn [add_carry_loop_n add_carry_loop]; er. Qed.
#[global] Hint Rewrite erase_add_carry_loop : er.
Lemma erase_small_add_from c v y start : erase (small_add_from_n c v y start) = Ok (small_add_from c v y start).
Proof. unfold small_add_from_n, small_add_from. er. Qed.
#[global] Hint Rewrite erase_small_add_from : er.
Lemma erase_small_add c v y : erase (small_add_n c v y) = Ok (small_add c v y).
Proof. unfold small_add_n, small_add. er. Qed.
#[global] Hint Rewrite erase_small_add : er.
Lemma erase_mul_loop c l y carry : erase (mul_loop_n c l y carry) = Ok (mul_loop c l y carry).
Proof. revert c y carry. induction l as [|? ? IH]; intros; cbn [mul_loop_n mul_loop]; er. Qed.
#[global] Hint Rewrite erase_mul_loop : er.
Lemma erase_small_mul c v y : erase (small_mul_n c v y) = Ok (small_mul c v y).
Proof. unfold small_mul_n, small_mul. er. Qed.
#[global] Hint Rewrite erase_small_mul : er.
Lemma erase_add_loop c xs ys carry : erase (add_loop_n c xs ys carry) = add_loop c xs ys carry.
Proof. revert ys carry. induction xs as [|x xs IH]; intros [|y ys] carry; cbn [add_loop_n add_loop];
    [reflexivity..|]. destruct (scalar_add c x y) as [s c1].
  destruct (if carry then scalar_add c s 1 else (s, false)) as [s2 c2].
  rewrite erase_seq, erase_tick, IH. apply bind_cong; [reflexivity|]. intros [r cr]. reflexivity. Qed.
#[global] Hint Rewrite erase_add_loop : er.
Lemma erase_large_add_from c x y start : erase (large_add_from_n c x y start) = large_add_from c x y start.
Proof. unfold large_add_from_n, large_add_from. er. Qed.
#[global] Hint Rewrite erase_large_add_from : er.
Lemma erase_long_mul_loop c x z ys index : erase (long_mul_loop_n c x z ys index) = long_mul_loop c x z ys index.
Proof. revert c x z index. induction ys as [|? ? IH]; intros; cbn [long_mul_loop_n long_mul_loop]; er. Qed.
#[global] Hint Rewrite erase_long_mul_loop : er.
Lemma erase_long_mul c x y : erase (long_mul_n c x y) = long_mul c x y.
Proof. unfold long_mul_n, long_mul. er. Qed.
#[global] Hint Rewrite erase_long_mul : er.
Lemma erase_large_mul c x y : erase (large_mul_n c x y) = large_mul c x y.
Proof. unfold large_mul_n, large_mul. er. Qed.
#[global] Hint Rewrite erase_large_mul : er.
Lemma erase_hi64 c v : erase (hi64_n c v) = hi64 c v.
Proof. unfold hi64_n, hi64. er. Qed.
#[global] Hint Rewrite erase_hi64 : er.
Lemma erase_compare_loop x y : erase (compare_loop_n x y) = Ok (compare_loop x y).
Proof. revert y. induction x as [|? ? IH]; intros; cbn [compare_loop_n compare_loop]; er. Qed.
#[global] Hint Rewrite erase_compare_loop : er.
Lemma erase_big_compare x y : erase (big_compare_n x y) = Ok (big_compare x y).
Proof. unfold big_compare_n, big_compare. er. Qed.
#[global] Hint Rewrite erase_big_compare : er.
Lemma erase_shl_loop c n l prev : erase (shl_loop_n c n l prev) = Ok (shl_loop c n l prev).
Proof. revert c n prev. induction l as [|? ? IH]; intros; cbn [shl_loop_n shl_loop]; er. Qed.
#[global] Hint Rewrite erase_shl_loop : er.
Lemma erase_shl_bits c v n : erase (shl_bits_n c v n) = shl_bits c v n.
Proof. unfold shl_bits_n, shl_bits. er. Qed.
#[global] Hint Rewrite erase_shl_bits : er.
Lemma erase_shl_limbs c v n : erase (shl_limbs_n c v n) = Ok (shl_limbs c v n).
Proof. unfold shl_limbs_n, shl_limbs. er. Qed.
#[global] Hint Rewrite erase_shl_limbs : er.
Lemma erase_big_pow2 c v n : erase (big_pow2_n c v n) = big_pow2 c v n.
Proof. unfold big_pow2_n, big_pow2. er. Qed.
#[global] Hint Rewrite erase_big_pow2 : er.
Lemma erase_pow5_large_loop fuel c v exp : erase (pow5_large_loop_n fuel c v exp) = pow5_large_loop fuel c v exp.
Proof. revert c v exp. induction fuel as [|? IH]; intros; cbn [pow5_large_loop_n pow5_large_loop]; er. Qed.
#[global] Hint Rewrite erase_pow5_large_loop : er.
Lemma erase_pow5_small_loop fuel c v exp : erase (pow5_small_loop_n fuel c v exp) = pow5_small_loop fuel c v exp.
Proof. revert c v exp. induction fuel as [|? IH]; intros; cbn [pow5_small_loop_n pow5_small_loop]; er. Qed.
#[global] Hint Rewrite erase_pow5_small_loop : er.
Lemma erase_big_pow5 c v exp : erase (big_pow5_n c v exp) = big_pow5 c v exp.
Proof. unfold big_pow5_n, big_pow5. er. Qed.
#[global] Hint Rewrite erase_big_pow5 : er.
Lemma erase_big_pow10 c v exp : erase (big_pow10_n c v exp) = big_pow10 c v exp.
Proof. unfold big_pow10_n, big_pow10. er. Qed.
#[global] Hint Rewrite erase_big_pow10 : er.
Lemma erase_bigint_of_u64 c x : erase (bigint_of_u64_n c x) = bigint_of_u64 c x.
Proof. unfold bigint_of_u64_n, bigint_of_u64. er. Qed.
#[global] Hint Rewrite erase_bigint_of_u64 : er.
Lemma erase_sci_loop fuel by_ step m e : erase (sci_loop_n fuel by_ step m e) = sci_loop fuel by_ step m e.
Proof. revert by_ step m e. induction fuel as [|? IH]; intros; cbn [sci_loop_n sci_loop]; er. Qed.
#[global] Hint Rewrite erase_sci_loop : er.
Lemma erase_scientific_exponent m e : erase (scientific_exponent_n m e) = scientific_exponent m e.
Proof. unfold scientific_exponent_n, scientific_exponent. er. Qed.
#[global] Hint Rewrite erase_scientific_exponent : er.
Lemma erase_skip_zeros_words fuel c u p : erase (skip_zeros_words_n fuel c u p) = skip_zeros_words fuel c u p.
Proof. revert c u p. induction fuel as [|? IH]; intros; cbn [skip_zeros_words_n skip_zeros_words]; er. Qed.
#[global] Hint Rewrite erase_skip_zeros_words : er.
Lemma erase_skip_zeros_chars p : erase (skip_zeros_chars_n p) = Ok (skip_zeros_chars p).
Proof. induction p as [|? ? IH]; cbn [skip_zeros_chars_n skip_zeros_chars]; er. Qed.
#[global] Hint Rewrite erase_skip_zeros_chars : er.
Lemma erase_skip_zeros c u p : erase (skip_zeros_n c u p) = skip_zeros c u p.
Proof. unfold skip_zeros_n, skip_zeros. er. Qed.
#[global] Hint Rewrite erase_skip_zeros : er.
Lemma erase_is_truncated_words fuel c u p : erase (is_truncated_words_n fuel c u p) = is_truncated_words fuel c u p.
Proof. revert c u p. induction fuel as [|? IH]; intros; cbn [is_truncated_words_n is_truncated_words]; er. Qed.
#[global] Hint Rewrite erase_is_truncated_words : er.
Lemma erase_is_truncated c u p : erase (is_truncated_n c u p) = is_truncated c u p.
Proof. unfold is_truncated_n, is_truncated. er. Qed.
#[global] Hint Rewrite erase_is_truncated : er.
Lemma erase_eight_loop fuel c u step max_digits p value counter digits : erase (eight_loop_n fuel c u step max_digits p value counter digits) = eight_loop fuel c u step max_digits p value counter digits.
Proof. revert c u step max_digits p value counter digits. induction fuel as [|? IH]; intros; cbn [eight_loop_n eight_loop]; er. Qed.
#[global] Hint Rewrite erase_eight_loop : er.
Lemma erase_one_loop c u step max_digits p value counter digits : erase (one_loop_n c u step max_digits p value counter digits) = one_loop c u step max_digits p value counter digits.
Proof. revert c u step max_digits value counter digits. induction p as [|? ? IH]; intros; cbn [one_loop_n one_loop]; er. Qed.
#[global] Hint Rewrite erase_one_loop : er.
Lemma erase_add_native c big power value : erase (add_native_n c big power value) = Ok (add_native c big power value).
Proof. unfold add_native_n, add_native. er. Qed.
#[global] Hint Rewrite erase_add_native : er.
Lemma erase_round_up_bigint c big count : erase (round_up_bigint_n c big count) = Ok (round_up_bigint c big count).
Proof. unfold round_up_bigint_n, round_up_bigint. er. Qed.
#[global] Hint Rewrite erase_round_up_bigint : er.
Lemma erase_mantissa_loop fuel c u step max_digits more p big digits : erase (mantissa_loop_n fuel c u step max_digits more p big digits) = mantissa_loop fuel c u step max_digits more p big digits.
Proof. revert c u step max_digits more p big digits. induction fuel as [|? IH]; intros; cbn [mantissa_loop_n mantissa_loop]; er. Qed.
#[global] Hint Rewrite erase_mantissa_loop : er.
Lemma erase_parse_mantissa c u num max_digits : erase (parse_mantissa_n c u num max_digits) = parse_mantissa c u num max_digits.
Proof. unfold parse_mantissa_n, parse_mantissa. er. Qed.
#[global] Hint Rewrite erase_parse_mantissa : er.
Lemma erase_positive_digit_comp c t big exponent : erase (positive_digit_comp_n c t big exponent) = positive_digit_comp c t big exponent.
Proof. unfold positive_digit_comp_n, positive_digit_comp. er. Qed.
#[global] Hint Rewrite erase_positive_digit_comp : er.
Lemma erase_negative_digit_comp c t big am exponent : erase (negative_digit_comp_n c t big am exponent) = negative_digit_comp c t big am exponent.
Proof. unfold negative_digit_comp_n, negative_digit_comp. er. Qed.
#[global] Hint Rewrite erase_negative_digit_comp : er.
Lemma erase_digit_comp c u t num am : erase (digit_comp_n c u t num am) = digit_comp c u t num am.
Proof. unfold digit_comp_n, digit_comp. er. Qed.
#[global] Hint Rewrite erase_digit_comp : er.
Lemma erase_from_chars_advanced_pns c u t pns : erase (from_chars_advanced_pns_n c u t pns) = from_chars_advanced_pns c u t pns.
Proof. unfold from_chars_advanced_pns_n, from_chars_advanced_pns. er. Qed.
#[global] Hint Rewrite erase_from_chars_advanced_pns : er.
Lemma erase_parse_number_slow_path c u t p o bjf : erase (parse_number_slow_path_n c u t p o bjf) = parse_number_slow_path c u t p o bjf.
Proof. unfold parse_number_slow_path_n, parse_number_slow_path. er. Qed.
#[global] Hint Rewrite erase_parse_number_slow_path : er.
Lemma erase_skip_ws p : erase (skip_ws_n p) = skip_ws p.
Proof. induction p as [|? ? IH]; cbn [skip_ws_n skip_ws]; er. Qed.
#[global] Hint Rewrite erase_skip_ws : er.
Lemma erase_from_chars_float_advanced c u t p o : erase (from_chars_float_advanced_n c u t p o) = from_chars_float_advanced c u t p o.
Proof. unfold from_chars_float_advanced_n, from_chars_float_advanced. er. Qed.
#[global] Hint Rewrite erase_from_chars_float_advanced : er.
Lemma erase_int_skip_zeros p : erase (int_skip_zeros_n p) = Ok (int_skip_zeros p).
Proof. induction p as [|? ? IH]; cbn [int_skip_zeros_n int_skip_zeros]; er. Qed.
#[global] Hint Rewrite erase_int_skip_zeros : er.
Lemma erase_skip_plain_digits p : erase (skip_plain_digits_n p) = Ok (skip_plain_digits p).
Proof. induction p as [|? ? IH]; cbn [skip_plain_digits_n skip_plain_digits]; er. Qed.
#[global] Hint Rewrite erase_skip_plain_digits : er.
Lemma erase_skip_integer_digits u p : erase (skip_integer_digits_n u p) = skip_integer_digits u p.
Proof. revert u. induction p as [|? ? IH]; intros; cbn [skip_integer_digits_n skip_integer_digits]; er. Qed.
#[global] Hint Rewrite erase_skip_integer_digits : er.
Lemma erase_parse_u8 c u has_leading_zeros first p : erase (parse_u8_n c u has_leading_zeros first p) = parse_u8 c u has_leading_zeros first p.
Proof. unfold parse_u8_n, parse_u8. er. Qed.
#[global] Hint Rewrite erase_parse_u8 : er.
Lemma erase_parse_u16 c u has_leading_zeros first p : erase (parse_u16_n c u has_leading_zeros first p) = parse_u16 c u has_leading_zeros first p.
Proof. unfold parse_u16_n, parse_u16. er. Qed.
#[global] Hint Rewrite erase_parse_u16 : er.
Lemma erase_int_loop u base p i : erase (int_loop_n u base p i) = int_loop u base p i.
Proof. revert u base i. induction p as [|? ? IH]; intros; cbn [int_loop_n int_loop]; er. Qed.
#[global] Hint Rewrite erase_int_loop : er.
Lemma erase_parse_int_general c u T base negative has_leading_zeros first start_digits : erase (parse_int_general_n c u T base negative has_leading_zeros first start_digits) = parse_int_general c u T base negative has_leading_zeros first start_digits.
Proof. unfold parse_int_general_n, parse_int_general. er. Qed.
#[global] Hint Rewrite erase_parse_int_general : er.
Lemma erase_parse_int_string c u T p o : erase (parse_int_string_n c u T p o) = parse_int_string c u T p o.
Proof. unfold parse_int_string_n, parse_int_string. er. Qed.
#[global] Hint Rewrite erase_parse_int_string : er.
Lemma erase_from_chars_int_advanced c u T p o : erase (from_chars_int_advanced_n c u T p o) = from_chars_int_advanced c u T p o.
Proof. unfold from_chars_int_advanced_n, from_chars_int_advanced. er. Qed.
#[global] Hint Rewrite erase_from_chars_int_advanced : er.