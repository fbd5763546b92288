(** C63: characters are read exactly.  What the reading of a tag takes for a character is
    the shortest form of it, and where it sees no character there is none. *)
From Coq Require Import Lia ZArith ZifyN.
From Verif Require Import GoStr Lines Generate GenSpec GenTold GoTag TagSpec TagFacts.
Local Open Scope N_scope.
Ltac Zify.zify_post_hook ::= Z.to_euclidean_division_equations.

Lemma in_range_iff : forall lo hi c, in_range lo hi c = true <-> lo <= N_of_ascii c <= hi.
Proof. intros lo hi c. unfold in_range. rewrite andb_true_iff, !N.leb_le. tauto. Qed.
Lemma in_range_out : forall lo hi c, in_range lo hi c = false -> N_of_ascii c < lo \/ hi < N_of_ascii c.
Proof. intros lo hi c H. unfold in_range in H. apply andb_false_iff in H as [H|H]; apply N.leb_gt in H; lia. Qed.
Lemma byte_again : forall c, ascii_of_N (N_of_ascii c) = c.
Proof. exact ascii_N_embedding. Qed.
Lemma lead_inv : forall c k lo hi, lead c = Some (k, lo, hi) ->
  (k = 1%nat /\ 194 <= N_of_ascii c <= 223 /\ lo = 128 /\ hi = 191)
  \/ (k = 2%nat /\ 224 <= N_of_ascii c <= 239 /\ 128 <= lo /\ hi <= 191 /\ (N_of_ascii c = 224 -> 160 <= lo) /\ (N_of_ascii c = 237 -> hi <= 159))
  \/ (k = 3%nat /\ 240 <= N_of_ascii c <= 244 /\ 128 <= lo /\ hi <= 191 /\ (N_of_ascii c = 240 -> 144 <= lo) /\ (N_of_ascii c = 244 -> hi <= 143)).
Proof.
  intros c k lo hi H. unfold lead in H.
  repeat match type of H with (if in_range ?a ?b c then _ else _) = _ => let E := fresh "E" in destruct (in_range a b c) eqn:E; [apply in_range_iff in E|apply in_range_out in E] end;
    try discriminate H; injection H as <- <- <-.
  - left. lia.
  - right; left. lia.
  - right; left. lia.
  - right; left. lia.
  - right; right. lia.
  - right; right. lia.
  - right; right. lia.
Qed.

(** Three cases: an ASCII character, a character in its shortest form, and no character. *)
Theorem C63_characters_are_read_exactly : forall c r n r', decode_rune c r = (n, r') ->
  (N_of_ascii c < 128 /\ n = N_of_ascii c /\ r' = r)
  \/ (exists s, codes n s /\ String c r = (s ++ r')%string)
  \/ (n = 65533 /\ r' = r /\ 128 <= N_of_ascii c /\ ~ exists m s t, codes m s /\ String c r = (s ++ t)%string).
Proof.
  intros c r n r' H.
  assert (NO : 128 <= N_of_ascii c -> decode_rune c r = (rune_error, r) ->
    (n = 65533 /\ r' = r /\ 128 <= N_of_ascii c /\ ~ exists m s t, codes m s /\ String c r = (s ++ t)%string)).
  { intros G E. rewrite E in H. injection H as <- <-. split; [reflexivity|]. split; [reflexivity|]. split; [exact G|]. intros (m & s & t & C & X).
    assert (L2 : (2 <= String.length s)%nat) by (destruct C; cbn [bytes fold_right String.length]; lia).
    destruct (decode_codes m s t C) as (c' & q & -> & _ & D). cbn [append] in X. injection X as <- ->. rewrite E in D. injection D as _ D.
    assert (Z : forall a b, String.length (a ++ b)%string = (String.length a + String.length b)%nat) by (induction a as [|x a IH]; intro b; cbn; [reflexivity|rewrite IH; reflexivity]).
    apply (f_equal String.length) in D. rewrite Z in D. cbn [String.length] in L2. lia. }
  destruct (N.ltb_spec (N_of_ascii c) 128) as [L|G].
  { left. unfold decode_rune in H. replace (N_of_ascii c <? 128) with true in H by (symmetry; apply N.ltb_lt; exact L). injection H as <- <-. auto. }
  right. specialize (NO G). pose proof H as H0. unfold decode_rune in H, NO. replace (N_of_ascii c <? 128) with false in H, NO by (symmetry; apply N.ltb_ge; exact G).
  destruct (lead c) as [[[k lo] hi]|] eqn:E; [|right; exact (NO eq_refl)].
  apply lead_inv in E as [(-> & A & -> & ->)|[(-> & A & B1 & B2 & B3 & B4)|(-> & A & B1 & B2 & B3 & B4)]].
  - destruct r as [|a r]; [right; exact (NO eq_refl)|]. destruct (in_range 128 191 a) eqn:R; [|right; exact (NO eq_refl)]. apply in_range_iff in R.
    left. injection H as <- <-. exists (bytes [N_of_ascii c; N_of_ascii a]). split; [|cbn [bytes fold_right append]; rewrite !byte_again; reflexivity].
    unfold low6. apply codes_2; unfold continues; lia.
  - destruct r as [|a [|b r]]; try (right; exact (NO eq_refl)). destruct (in_range lo hi a) eqn:R; [|right; exact (NO eq_refl)]. destruct (in_range 128 191 b) eqn:R'; [|right; exact (NO eq_refl)].
    apply in_range_iff in R, R'. cbn [andb] in H. left. injection H as <- <-. exists (bytes [N_of_ascii c; N_of_ascii a; N_of_ascii b]).
    split; [|cbn [bytes fold_right append]; rewrite !byte_again; reflexivity].
    assert (M : N_of_ascii c mod 16 = N_of_ascii c - 224) by lia. assert (M1 : low6 a = N_of_ascii a - 128) by (unfold low6; lia). assert (M2 : low6 b = N_of_ascii b - 128) by (unfold low6; lia).
    rewrite M, M1, M2. clear M M1 M2 NO H0. apply codes_3; unfold continues; lia.
  - destruct r as [|a [|b [|d r]]]; try (right; exact (NO eq_refl)). destruct (in_range lo hi a) eqn:R; [|right; exact (NO eq_refl)].
    destruct (in_range 128 191 b) eqn:R'; [|right; exact (NO eq_refl)]. destruct (in_range 128 191 d) eqn:R''; [|right; exact (NO eq_refl)].
    apply in_range_iff in R, R', R''. cbn [andb] in H. left. injection H as <- <-. exists (bytes [N_of_ascii c; N_of_ascii a; N_of_ascii b; N_of_ascii d]).
    split; [|cbn [bytes fold_right append]; rewrite !byte_again; reflexivity].
    assert (M : N_of_ascii c mod 8 = N_of_ascii c - 240) by lia. assert (M1 : low6 a = N_of_ascii a - 128) by (unfold low6; lia). assert (M2 : low6 b = N_of_ascii b - 128) by (unfold low6; lia).
    assert (M3 : low6 d = N_of_ascii d - 128) by (unfold low6; lia).
    rewrite M, M1, M2, M3. clear M M1 M2 M3 NO H0. apply codes_4; unfold continues; lia.
Qed.
Print Assumptions C63_characters_are_read_exactly.

(** U+00E9, U+1F600, and a lead byte without its tail. *)
Example C63_read_two : decode_rune (ascii_of_N 195) (bytes [169; 65]) = (233, bytes [65]).
Proof. vm_compute. reflexivity. Qed.
Example C63_read_four : decode_rune (ascii_of_N 240) (bytes [159; 152; 128; 65]) = (128512, bytes [65]).
Proof. vm_compute. reflexivity. Qed.
Example C63_read_none : decode_rune (ascii_of_N 240) (bytes [159; 152; 192; 65]) = (65533, bytes [159; 152; 192; 65]).
Proof. vm_compute. reflexivity. Qed.

(** C05: the token of a single byte carries the byte itself or, for a byte above 127, the
    character with the number of the byte; so the byte can be told from the text. *)
Theorem C05_text_of_a_byte : forall c,
  (N_of_ascii c < 128 -> string_of_byte c = String c "")
  /\ (128 <= N_of_ascii c -> codes (N_of_ascii c) (string_of_byte c))
  /\ (forall c', string_of_byte c' = string_of_byte c -> c' = c).
Proof.
  assert (B : forall c, 128 <= N_of_ascii c -> codes (N_of_ascii c) (string_of_byte c)).
  { intros c H. assert (N_of_ascii c < 256) as U by (destruct c as [[] [] [] [] [] [] [] []]; vm_compute; reflexivity). unfold string_of_byte. cbv zeta.
    replace (N_of_ascii c <? 128) with false by (symmetry; apply N.ltb_ge; exact H).
    change (String (ascii_of_N (192 + N_of_ascii c / 64)) (String (ascii_of_N (128 + N_of_ascii c mod 64)) "")) with (bytes [192 + N_of_ascii c / 64; 128 + N_of_ascii c mod 64]).
    apply codes_2; unfold continues; lia. }
  assert (A : forall c, N_of_ascii c < 128 -> string_of_byte c = String c "").
  { intros c H. unfold string_of_byte. cbv zeta. replace (N_of_ascii c <? 128) with true by (symmetry; apply N.ltb_lt; exact H). reflexivity. }
  intro c. split; [apply A|]. split; [apply B|]. intros c' E.
  destruct (N.ltb_spec (N_of_ascii c) 128) as [L|G], (N.ltb_spec (N_of_ascii c') 128) as [L'|G'].
  - rewrite !A in E by assumption. congruence.
  - rewrite (A c L) in E. pose proof (B c' G') as K. rewrite E in K. apply encode_codes in K as (_ & _ & K). exfalso. pose proof (B c' G') as K2. rewrite E in K2.
    inversion K2 as [a b n _ _ _ _ X Y|a b d n _ _ _ _ _ _ X Y|a b d e n _ _ _ _ _ _ X Y]; cbn [bytes fold_right] in Y; discriminate Y.
  - rewrite (A c' L') in E. pose proof (B c G) as K2. rewrite <- E in K2. exfalso.
    inversion K2 as [a b n _ _ _ _ X Y|a b d n _ _ _ _ _ _ X Y|a b d e n _ _ _ _ _ _ X Y]; cbn [bytes fold_right] in Y; discriminate Y.
  - pose proof (decode_codes _ _ "" (B c G)) as (x & r & X & _ & D). pose proof (decode_codes _ _ "" (B c' G')) as (x' & r' & X' & _ & D').
    rewrite X in E. rewrite X' in E. injection E as <- <-. rewrite D in D'. injection D' as D'. rewrite <- (byte_again c), <- (byte_again c'). congruence.
Qed.
Print Assumptions C05_text_of_a_byte.
Example C05_byte_233 : string_of_byte (ascii_of_N 233) = bytes [195; 169].
Proof. vm_compute. reflexivity. Qed.
