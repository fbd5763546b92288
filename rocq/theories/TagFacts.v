(** Facts about struct tags: what GoTag.v makes of what TagSpec.v describes. *)
From Coq Require Import Lia ZArith ZifyN.
From Verif Require Import GoStr Lines Generate GenSpec GenTold GoTag TagSpec.
Local Open Scope N_scope.
Ltac Zify.zify_post_hook ::= Z.to_euclidean_division_equations.

Lemma code_of : forall n, n < 256 -> N_of_ascii (ascii_of_N n) = n.
Proof. exact N_ascii_embedding. Qed.
Lemma range_of : forall lo hi n, n < 256 -> in_range lo hi (ascii_of_N n) = (lo <=? n) && (n <=? hi).
Proof. intros lo hi n H. unfold in_range. now rewrite code_of. Qed.
Lemma range_true : forall lo hi n, n < 256 -> lo <= n <= hi -> in_range lo hi (ascii_of_N n) = true.
Proof. intros lo hi n H B. rewrite range_of by assumption. apply andb_true_intro. split; apply N.leb_le; lia. Qed.
Lemma range_false : forall lo hi n, n < 256 -> n < lo \/ hi < n -> in_range lo hi (ascii_of_N n) = false.
Proof. intros lo hi n H B. rewrite range_of by assumption. apply andb_false_iff. destruct B; [left|right]; apply N.leb_gt; lia. Qed.

(** * UTF-8 *)

Lemma decode_codes : forall n s t, codes n s -> exists c r, s = String c r /\ 128 <= N_of_ascii c /\ decode_rune c (r ++ t) = (n, t).
Proof.
  intros n s t H. destruct H as [a b n A B -> L|a b c n A B C -> L U|a b c d n A B C D -> L]; unfold continues in *; cbn [bytes fold_right append];
    (eexists; eexists; split; [reflexivity|]); rewrite !code_of by lia; (split; [lia|]); unfold decode_rune, lead, low6; rewrite !code_of by lia;
    (replace (a <? 128) with false by (symmetry; apply N.ltb_ge; lia)).
  - rewrite (range_true 194 223) by lia. cbv beta iota; cbn [append]; rewrite !code_of by lia. rewrite range_true by lia. (f_equal; lia).
  - rewrite (range_false 194 223) by lia.
    destruct (N.eq_dec a 224) as [->|N0].
    + rewrite (range_true 224 224) by lia. cbv beta iota; cbn [append]; rewrite !code_of by lia. rewrite (range_true 160) by lia. rewrite range_true by lia. cbn [andb]. (f_equal; lia).
    + rewrite (range_false 224 224) by lia. destruct (N.eq_dec a 237) as [->|N1].
      * rewrite (range_true 237 237) by lia. cbv beta iota; cbn [append]; rewrite !code_of by lia. rewrite (range_true 128 159) by lia. rewrite range_true by lia. cbn [andb]. (f_equal; lia).
      * rewrite (range_false 237 237) by lia. rewrite (range_true 225 239) by lia. cbv beta iota; cbn [append]; rewrite !code_of by lia. rewrite !range_true by lia. cbn [andb]. (f_equal; lia).
  - rewrite (range_false 194 223), (range_false 224 224), (range_false 237 237), (range_false 225 239) by lia.
    destruct (N.eq_dec a 240) as [->|N0].
    + rewrite (range_true 240 240) by lia. cbv beta iota; cbn [append]; rewrite !code_of by lia. rewrite (range_true 144) by lia. rewrite !range_true by lia. cbn [andb]. (f_equal; lia).
    + rewrite (range_false 240 240) by lia. destruct (N.eq_dec a 244) as [->|N1].
      * rewrite (range_false 241 243), (range_true 244 244) by lia. cbv beta iota; cbn [append]; rewrite !code_of by lia. rewrite (range_true 128 143) by lia. rewrite !range_true by lia. cbn [andb]. (f_equal; lia).
      * rewrite (range_true 241 243) by lia. cbv beta iota; cbn [append]; rewrite !code_of by lia. rewrite !range_true by lia. cbn [andb]. (f_equal; lia).
Qed.
Lemma encode_codes : forall n s, codes n s -> 128 <= n /\ valid_rune n = true /\ encode_rune n = s.
Proof.
  intros n s H. destruct H as [a b n A B -> L|a b c n A B C -> L U|a b c d n A B C D -> L]; unfold continues in *.
  - set (n := (a - 192) * 64 + (b - 128)) in *. assert (n <= 2047) by (subst n; lia). split; [lia|]. split.
    + unfold valid_rune. apply orb_true_iff. left. apply N.ltb_lt. lia.
    + unfold encode_rune. replace (n <=? 127) with false by (symmetry; apply N.leb_gt; lia). replace (n <=? 2047) with true by (symmetry; apply N.leb_le; lia).
      unfold byte. cbn [bytes fold_right]. f_equal; [f_equal; subst n; lia|]. f_equal. f_equal. subst n. lia.
  - set (n := (a - 224) * 4096 + (b - 128) * 64 + (c - 128)) in *. assert (n <= 65535) by (subst n; lia). split; [lia|].
    assert (valid_rune n = true) as V.
    { unfold valid_rune. apply orb_true_iff. destruct (N.lt_ge_cases n 55296); [left; apply N.ltb_lt; lia|]. right. apply andb_true_intro. split; [apply N.ltb_lt|apply N.leb_le]; lia. }
    split; [exact V|]. unfold encode_rune. replace (n <=? 127) with false by (symmetry; apply N.leb_gt; lia). replace (n <=? 2047) with false by (symmetry; apply N.leb_gt; lia).
    rewrite V. cbn [negb]. replace (n <=? 65535) with true by (symmetry; apply N.leb_le; lia). unfold three_bytes, byte. cbn [bytes fold_right].
    f_equal; [f_equal; subst n; lia|]. f_equal; [f_equal; subst n; lia|]. f_equal. f_equal. subst n. lia.
  - set (n := (a - 240) * 262144 + (b - 128) * 4096 + (c - 128) * 64 + (d - 128)) in *. split; [lia|].
    assert (valid_rune n = true) as V.
    { unfold valid_rune. apply orb_true_iff. right. apply andb_true_intro. split; [apply N.ltb_lt|apply N.leb_le]; lia. }
    split; [exact V|]. unfold encode_rune. replace (n <=? 127) with false by (symmetry; apply N.leb_gt; lia). replace (n <=? 2047) with false by (symmetry; apply N.leb_gt; lia).
    rewrite V. cbn [negb]. replace (n <=? 65535) with false by (symmetry; apply N.leb_gt; lia). unfold byte. cbn [bytes fold_right].
    f_equal; [f_equal; subst n; lia|]. f_equal; [f_equal; subst n; lia|]. f_equal; [f_equal; subst n; lia|]. f_equal. f_equal. subst n. lia.
Qed.

(** * Digits *)

Lemma digit_hex : forall c v, digit_of 16 c v -> unhex c = Some v.
Proof.
  intros c v [L [[-> H]|[[->| ->] H]]]; unfold unhex.
  - rewrite range_true by lia. rewrite code_of by lia. f_equal. lia.
  - rewrite (range_false 48 57) by lia. rewrite range_true by lia. rewrite code_of by lia. f_equal. lia.
  - rewrite (range_false 48 57), (range_false 97 102) by lia. rewrite range_true by lia. rewrite code_of by lia. f_equal. lia.
Qed.
Lemma digit_octal : forall c v, digit_of 8 c v -> in_range 48 55 c = true /\ N_of_ascii c - 48 = v.
Proof.
  intros c v [L [[-> H]|[[->| ->] H]]]; [|lia|lia]. rewrite range_true by lia. rewrite code_of by lia. split; [reflexivity|lia].
Qed.
Lemma string_app_assoc : forall a b c : string, ((a ++ b) ++ c = a ++ (b ++ c))%string.
Proof. induction a; intros b c; cbn; [reflexivity|now rewrite IHa]. Qed.
Lemma append_one : forall s c t, (s ++ String c "") ++ t = s ++ String c t.
Proof. induction s; intros c t; cbn; [reflexivity|now rewrite IHs]. Qed.
Lemma number_hex : forall s n, number 16 s n -> forall t, hex_digits (String.length s) 0 (s ++ t) = Some (n, t).
Proof.
  assert (forall s n, number 16 s n -> forall k u, hex_digits (String.length s + k) 0 (s ++ u) = hex_digits k n u) as K.
  { intros s n H. induction H as [|s n c v H IH D]; intros k u; [reflexivity|].
    rewrite append_one. replace (String.length (s ++ String c "") + k)%nat with (String.length s + S k)%nat.
    - rewrite IH. cbn [hex_digits]. now rewrite (digit_hex _ _ D).
    - clear. induction s; cbn; [reflexivity|]. f_equal. exact IHs. }
  intros s n H t. rewrite <- (Nat.add_0_r (String.length s)). now rewrite (K _ _ H).
Qed.
Lemma number_octal : forall s n, number 8 s n -> forall k u, octal_digits (String.length s + k) 0 (s ++ u) = octal_digits k n u.
Proof.
  intros s n H. induction H as [|s n c v H IH D]; intros k u; [reflexivity|].
  rewrite append_one. replace (String.length (s ++ String c "") + k)%nat with (String.length s + S k)%nat.
  - rewrite IH. cbn [octal_digits]. destruct (digit_octal _ _ D) as [-> ->]. reflexivity.
  - clear. induction s; cbn; [reflexivity|]. f_equal. exact IHs.
Qed.

(** * Bytes that mean themselves *)

Definition tame (c : ascii) : bool := negb (Ascii.eqb c ch_dquote) && negb (Ascii.eqb c ch_backslash).
Fixpoint all_tame (s : string) : bool := match s with EmptyString => true | String c r => tame c && all_tame r end.
Lemma tame_code : forall n, n < 256 -> n <> 34 -> n <> 92 -> tame (ascii_of_N n) = true.
Proof.
  intros n H A B. unfold tame. apply andb_true_intro; split; apply negb_true_iff, Ascii.eqb_neq; intros E;
    apply (f_equal N_of_ascii) in E; rewrite code_of in E by assumption; [apply A|apply B]; exact E.
Qed.
Lemma all_tame_app : forall a b, all_tame (a ++ b) = all_tame a && all_tame b.
Proof. induction a; intros b; cbn; [reflexivity|]. now rewrite IHa, andb_assoc. Qed.
Lemma tame_codes : forall n s, codes n s -> all_tame s = true.
Proof.
  intros n s H. destruct H; unfold continues in *; cbn [bytes fold_right all_tame]; rewrite !tame_code by lia; reflexivity.
Qed.
Lemma tame_number : forall base s n, base <= 16 -> number base s n -> all_tame s = true.
Proof.
  intros base s n B H. induction H as [|s n c v H IH [L D]]; [reflexivity|]. rewrite all_tame_app, IH. cbn [all_tame andb].
  destruct D as [[-> D]|[[->| ->] D]]; rewrite tame_code by lia; reflexivity.
Qed.
Lemma value_tame : forall s t, all_tame s = true -> value_of (s ++ t) = match value_of t with Some (x, r) => Some (s ++ x, r)%string | None => None end.
Proof.
  induction s as [|c s IH]; intros t H; cbn [append]; [now destruct (value_of t) as [[x r]|]|].
  cbn [all_tame] in H. apply andb_prop in H as [Hc Hs]. apply andb_prop in Hc as [H1 H2].
  cbn [value_of]. destruct (Ascii.eqb c ch_dquote); [discriminate|]. destruct (Ascii.eqb c ch_backslash); [discriminate|].
  rewrite IH by assumption. now destruct (value_of t) as [[x r]|].
Qed.
Lemma value_escape : forall d s t, all_tame s = true ->
  value_of (String ch_backslash (String d s) ++ t) = match value_of t with Some (x, r) => Some (String ch_backslash (String d s) ++ x, r)%string | None => None end.
Proof.
  intros d s t H. cbn [append]. change (value_of (String ch_backslash (String d (s ++ t))))
    with (match value_of (s ++ t) with Some (v, rest) => Some (String ch_backslash (String d v), rest) | None => None end).
  rewrite value_tame by assumption. now destruct (value_of t) as [[x r]|].
Qed.

(** * Pieces of a value *)

Lemma piece_shape : forall p v, piece p v -> (exists d r, p = String ch_backslash (String d r) /\ all_tame r = true) \/ (v = p /\ all_tame p = true).
Proof.
  intros p v H. destruct H as [c L Q B E|n s C| | |c n I|h n M L|o n M L S|u h n s U M C].
  - right. split; [reflexivity|]. cbn. unfold tame. destruct (Ascii.eqb_spec c ch_dquote); [now destruct Q|]. destruct (Ascii.eqb_spec c ch_backslash); [now destruct B|]. reflexivity.
  - right. split; [reflexivity|]. eapply tame_codes; eassumption.
  - left. now exists "034"%char, EmptyString.
  - left. now exists "092"%char, EmptyString.
  - left. cbn [In] in I. repeat (destruct I as [I|I]; [inversion I; subst; eexists; exists EmptyString; split; reflexivity|]). destruct I.
  - left. exists "x"%char, h. split; [reflexivity|]. eapply tame_number; [|exact M]. lia.
  - left. assert (all_tame o = true) as T by (eapply tame_number; [|exact M]; lia). destruct o as [|d o]; [discriminate|]. exists d, o. split; [reflexivity|].
    cbn [all_tame] in T. now apply andb_prop in T as [_ T].
  - left. assert (all_tame h = true) as T by (eapply tame_number; [|exact M]; lia). destruct U as [[-> _]|[-> _]]; eexists; exists h; split; try reflexivity; exact T.
Qed.
Lemma piece_value : forall p v t, piece p v -> value_of (p ++ t) = match value_of t with Some (x, r) => Some (p ++ x, r)%string | None => None end.
Proof. intros p v t H. destruct (piece_shape p v H) as [(d & r & -> & T)|[_ T]]; [now apply value_escape|now apply value_tame]. Qed.
Lemma quoted_value : forall q v t, quoted q v -> value_of (q ++ dquote ++ t) = Some (q ++ dquote, t)%string.
Proof.
  intros q v t H. induction H as [|p v q w P H IH]; [reflexivity|].
  rewrite string_app_assoc. rewrite (piece_value p v) by assumption. rewrite IH. now rewrite string_app_assoc.
Qed.

Definition made (n : N) (m : bool) : string := if (n <? 128) || negb m then String (byte n) "" else encode_rune n.
Lemma piece_read : forall p v t, piece p v -> exists c r n m, p = String c r /\ c <> ch_dquote /\ c <> ch_nl /\ unquote_char (p ++ t) = Some (n, m, t) /\ made n m = v.
Proof.
  intros p v t H. destruct H as [c L Q B E|n s C| | |c n I|h n M L|o n M L S|u h n s U M C].
  - exists c, "", (N_of_ascii c), false. repeat split; try assumption.
    + cbn [append unquote_char]. destruct (Ascii.eqb_spec c ch_dquote); [now destruct Q|].
      replace (128 <=? N_of_ascii c) with false by (symmetry; apply N.leb_gt; exact L). destruct (Ascii.eqb_spec c ch_backslash); [now destruct B|]. reflexivity.
    + unfold made, byte. rewrite orb_true_r. now rewrite ascii_N_embedding.
  - destruct (decode_codes n s t C) as (c & r & -> & L & D). destruct (encode_codes _ _ C) as (G & _ & En). exists c, r, n, true. repeat split.
    + intros ->. vm_compute in L. now apply L.
    + intros ->. vm_compute in L. now apply L.
    + cbn [append unquote_char]. destruct (Ascii.eqb_spec c ch_dquote) as [->|]; [vm_compute in L; now destruct L|].
      replace (128 <=? N_of_ascii c) with true by (symmetry; apply N.leb_le; exact L). now rewrite D.
    + unfold made. replace (n <? 128) with false by (symmetry; apply N.ltb_ge; exact G). exact En.
  - exists ch_backslash, dquote, 34, false. repeat split; discriminate.
  - exists ch_backslash, backslash, 92, false. repeat split; discriminate.
  - cbn [In] in I. repeat (destruct I as [I|I]; [inversion I; subst; eexists; eexists; eexists; exists false; repeat split; discriminate|]). destruct I.
  - exists ch_backslash, ("x" ++ h)%string, n, false. pose proof (number_hex h n M t) as X. rewrite L in X. repeat split; try discriminate.
    + change (unquote_char ((backslash ++ "x" ++ h) ++ t)) with (match hex_digits 2 0 (h ++ t) with Some (v, r') => Some (v, false, r') | None => None end). now rewrite X.
    + unfold made. now rewrite orb_true_r.
  - pose proof (number_octal o n M 0 t) as X. rewrite L in X. destruct o as [|d o]; [discriminate|].
    exists ch_backslash, (String d o), n, false. repeat split; try discriminate.
    + cbn [octal_digits append Nat.add] in X. destruct (in_range 48 55 d) eqn:Rd; [|discriminate].
      assert (exists k, d = ascii_of_N k /\ 48 <= k <= 55) as (k & -> & Bk).
      { exists (N_of_ascii d). split; [now rewrite ascii_N_embedding|]. unfold in_range in Rd. apply andb_prop in Rd as [R1 R2]. apply N.leb_le in R1, R2. lia. }
      cbn [append backslash bytes fold_right]. cbn [unquote_char]. change (Ascii.eqb (ascii_of_N 92) ch_dquote) with false. change (128 <=? N_of_ascii (ascii_of_N 92)) with false. change (Ascii.eqb (ascii_of_N 92) ch_backslash) with true. cbn [negb].
      assert (k = 48 \/ k = 49 \/ k = 50 \/ k = 51 \/ k = 52 \/ k = 53 \/ k = 54 \/ k = 55) as Ck by lia.
      rewrite N.mul_0_l, N.add_0_l in X. clear Rd M L Bk.
      replace (control (ascii_of_N k)) with (@None N) by (intuition (subst; reflexivity)).
      replace (Ascii.eqb (ascii_of_N k) "x") with false by (intuition (subst; reflexivity)).
      replace (Ascii.eqb (ascii_of_N k) "u") with false by (intuition (subst; reflexivity)).
      replace (Ascii.eqb (ascii_of_N k) "U") with false by (intuition (subst; reflexivity)).
      replace (in_range 48 55 (ascii_of_N k)) with true by (intuition (subst; reflexivity)).
      change (octal_digits 2 (N_of_ascii (ascii_of_N k) - 48) (o ++ t) = Some (n, t)) in X. rewrite X.
      replace (255 <? n) with false by (symmetry; apply N.ltb_ge; lia). reflexivity.
    + unfold made. now rewrite orb_true_r.
  - pose proof (number_hex h n M t) as X.
    assert (valid_rune n = true /\ made n true = s) as [V Mk].
    { destruct C as [C|[C ->]].
      - destruct (encode_codes _ _ C) as (G & V & En). split; [exact V|]. unfold made. replace (n <? 128) with false by (symmetry; apply N.ltb_ge; exact G). exact En.
      - split; [unfold valid_rune; apply orb_true_iff; left; apply N.ltb_lt; lia|]. unfold made. now replace (n <? 128) with true by (symmetry; apply N.ltb_lt; exact C). }
    destruct U as [[-> L]|[-> L]]; rewrite L in X; eexists; eexists; exists n, true; (split; [reflexivity|]); (split; [discriminate|]); (split; [discriminate|]); (split; [|exact Mk]).
    + change (unquote_char ((backslash ++ "u" ++ h) ++ t)) with (match hex_digits 4 0 (h ++ t) with Some (v, r') => if valid_rune v then Some (v, true, r') else None | None => None end). now rewrite X, V.
    + change (unquote_char ((backslash ++ "U" ++ h) ++ t)) with (match hex_digits 8 0 (h ++ t) with Some (v, r') => if valid_rune v then Some (v, true, r') else None | None => None end). now rewrite X, V.
Qed.
Lemma quoted_loop : forall q w, quoted q w -> forall fuel t, (String.length (q ++ dquote) <= fuel)%nat -> unquote_loop fuel (q ++ dquote ++ t) = Some (w, t).
Proof.
  intros q w H. induction H as [|p v q w P H IH]; intros fuel t F.
  - destruct fuel; [cbn in F; lia|]. reflexivity.
  - rewrite string_app_assoc. destruct (piece_read p v (q ++ dquote ++ t) P) as (c & r & n & m & Ep & Q & E & U & Mk).
    destruct fuel; [rewrite Ep in F; cbn in F; lia|].
    assert (unquote_loop (S fuel) (p ++ q ++ dquote ++ t) = match unquote_char (p ++ q ++ dquote ++ t) with
      | None => None
      | Some (n, m, r') => match unquote_loop fuel r' with None => None | Some (v, rest) => Some (String.append (made n m) v, rest) end end) as ->.
    { rewrite Ep. cbn [append unquote_loop]. destruct (Ascii.eqb_spec c ch_dquote); [now destruct Q|]. destruct (Ascii.eqb_spec c ch_nl); [now destruct E|]. reflexivity. }
    rewrite U, IH; [now rewrite Mk|]. rewrite Ep in F. cbn [append String.length] in F. rewrite string_app_assoc in F.
    assert (forall a b, String.length b <= String.length (a ++ b))%nat as K by (induction a; intros b; cbn; [lia|specialize (IHa b); lia]).
    specialize (K r (q ++ dquote)%string). lia.
Qed.
Lemma until_tame : forall s t, all_tame s = true -> until_dquote (s ++ t) = match until_dquote t with Some v => Some (s ++ v)%string | None => None end.
Proof.
  induction s as [|c s IH]; intros t H; cbn [append]; [now destruct (until_dquote t)|].
  cbn [all_tame] in H. apply andb_prop in H as [Hc Hs]. apply andb_prop in Hc as [H1 H2]. cbn [until_dquote]. destruct (Ascii.eqb c ch_dquote); [discriminate|].
  rewrite IH by assumption. now destruct (until_dquote t).
Qed.
Lemma has_byte_app : forall b s t, has_byte b (s ++ t) = has_byte b s || has_byte b t.
Proof. induction s; intros t; cbn; [reflexivity|]. now rewrite IHs, orb_assoc. Qed.
Lemma quoted_plain : forall q w, quoted q w -> forall t, exists v, until_dquote (q ++ dquote ++ t) = Some v /\ (has_byte ch_backslash v = false -> v = q /\ w = q).
Proof.
  intros q w H. induction H as [|p v q w P H IH]; intros t; [exists ""; repeat split|].
  rewrite string_app_assoc. destruct (IH t) as (u & E & K). destruct (piece_shape p v P) as [(d & r & -> & T)|[-> T]].
  - destruct (Ascii.eqb_spec d ch_dquote) as [->|D].
    + eexists. split; [cbn; reflexivity|]. discriminate.
    + cbn [append]. change (until_dquote (String ch_backslash (String d (r ++ q ++ dquote ++ t)))) with
        (match (if Ascii.eqb d ch_dquote then Some "" else match until_dquote (r ++ q ++ dquote ++ t) with Some v => Some (String d v) | None => None end) with Some v => Some (String ch_backslash v) | None => None end)%string.
      destruct (Ascii.eqb_spec d ch_dquote); [now destruct D|]. rewrite until_tame by assumption. rewrite E. eexists. split; [reflexivity|]. discriminate.
  - rewrite until_tame by assumption. rewrite E. eexists. split; [reflexivity|]. rewrite has_byte_app. intros B. apply orb_false_iff in B as [_ B].
    destruct (K B) as [-> ->]. now split.
Qed.
Lemma quoted_unquote : forall q w, quoted q w -> unquote (q ++ dquote) = Some w.
Proof.
  intros q w H. unfold unquote. destruct (quoted_plain q w H "") as (v & E & K). change (dquote ++ "")%string with dquote in E. rewrite E.
  destruct (has_byte ch_backslash v) eqn:B.
  - cbn [negb andb]. pose proof (quoted_loop q w H (S (String.length (q ++ dquote))) "") as L. change (dquote ++ "")%string with dquote in L. rewrite L; [reflexivity|lia].
  - destruct (K eq_refl) as [-> ->]. destruct (negb false && negb (has_byte ch_nl q) && valid_string (String.length q) q).
    + replace (String.length (q ++ dquote)) with (String.length q + 1)%nat; [now rewrite Nat.eqb_refl|]. clear. induction q; cbn; [reflexivity|now rewrite IHq].
    + pose proof (quoted_loop q q H (S (String.length (q ++ dquote))) "") as L. change (dquote ++ "")%string with dquote in L. rewrite L; [reflexivity|lia].
Qed.

(** * Tags *)

Lemma key_read : forall key r, all_of key_char key = true -> key_of (key ++ ":" ++ r) = (key, ":" ++ r)%string.
Proof.
  induction key as [|c key IH]; intros r H; [reflexivity|]. cbn [all_of] in H. apply andb_prop in H as [Hc H]. cbn [append key_of].
  assert (key_byte c = true) as ->.
  { unfold key_char, between in Hc. unfold key_byte. apply andb_prop in Hc as [Hc Q]. apply andb_prop in Hc as [Hc C]. rewrite C. change ch_dquote with "034"%char. rewrite Q.
    rewrite andb_true_r. apply orb_prop in Hc as [Hc|Hc]; apply andb_prop in Hc as [H1 H2]; apply N.leb_le in H1, H2.
    - replace (32 <? N_of_ascii c) with true by (symmetry; apply N.ltb_lt; lia). cbn. apply negb_true_iff, N.eqb_neq. lia.
    - replace (32 <? N_of_ascii c) with true by (symmetry; apply N.ltb_lt; lia). cbn. apply negb_true_iff, N.eqb_neq. lia. }
  change (String ":" r) with (":" ++ r)%string. rewrite IH by assumption. reflexivity.
Qed.
Lemma key_first : forall key r, key <> "" -> all_of key_char key = true -> trim_left_byte " " (key ++ r) = (key ++ r)%string.
Proof.
  intros [|c key] r N H; [now destruct N|]. cbn [all_of] in H. apply andb_prop in H as [Hc _]. cbn [append trim_left_byte].
  destruct (Ascii.eqb_spec " " c) as [<-|]; [discriminate|reflexivity].
Qed.
Lemma trim_blanks : forall k s, trim_left_byte " " (blanks k ++ s) = trim_left_byte " " s.
Proof. induction k; intros s; [reflexivity|]. cbn. apply IHk. Qed.
Lemma lookup_tag : forall tag l, tag_of tag l -> forall fuel key, (String.length tag < fuel)%nat ->
  match tag_lookup fuel tag key with Some v => v | None => "" end = value_under key l.
Proof.
  intros tag l H. induction H as [k|k name q v rest l N A Q H IH]; intros fuel key F; (destruct fuel; [lia|]); cbn [tag_lookup].
  - assert (trim_left_byte " " (blanks k) = "") as -> by (clear; induction k; [reflexivity|exact IHk]). reflexivity.
  - rewrite trim_blanks. rewrite key_first by assumption. rewrite key_read by assumption.
    destruct (String.eqb_spec name ""); [now destruct N|].
    change (":" ++ dquote ++ q ++ dquote ++ rest)%string with (String ":" (String ch_dquote (q ++ dquote ++ rest))). cbv iota beta.
    change (Ascii.eqb ":" ":" && Ascii.eqb ch_dquote ch_dquote) with true. cbv iota. rewrite (quoted_value q v) by assumption. cbn [value_under]. rewrite (String.eqb_sym name key). destruct (String.eqb key name).
    + now rewrite (quoted_unquote q v).
    + apply IH.
      assert (forall a b, String.length (a ++ b) = String.length a + String.length b)%nat as K by (induction a; intros b; cbn; [reflexivity|now rewrite IHa]).
      rewrite !K in F. cbn [String.length] in F. lia.
Qed.
