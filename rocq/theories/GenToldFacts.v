(** Annotations are understood: facts behind C49 - C51. *)
From Coq Require Import Permutation Lia.
From Verif Require Import GoStr Token Lexer Ast Parser Lines Tidy AppendFacts IndexText LinesFacts.
From Verif Require Import Generate GenSpec GenFacts GenOrder GenText GenSafe GenTold.

(** * Pieces of regular expressions *)

Lemma white_space : forall c, white c = re_space c.
Proof.
  intro c. unfold white, re_space. cbn [existsb]. 
  destruct (Ascii.eqb c " "), (Ascii.eqb c ch_tab), (Ascii.eqb c ch_nl), (Ascii.eqb c ch_cr), (Ascii.eqb c "012"); reflexivity.
Qed.
Lemma black_nonspace : forall c, black c = re_nonspace c.
Proof. intro c. unfold black, re_nonspace. rewrite white_space. reflexivity. Qed.

Lemma star_stop : forall A p (k : string -> option A) s, match s with String c _ => p c = false | EmptyString => True end -> star p k s = k s.
Proof. intros A p k [|c r] H; [reflexivity|]. cbn [star]. rewrite H. reflexivity. Qed.
Lemma star_some : forall A p (k : string -> option A) a s x, all_of p a = true -> star p k s = Some x -> star p k (a ++ s) = Some x.
Proof.
  induction a as [|c a IH]; intros s x Ha H; [exact H|]. cbn [all_of] in Ha. apply andb_true_iff in Ha. destruct Ha as [Hc Ha].
  cbn [append star]. rewrite Hc, (IH s x Ha H). reflexivity.
Qed.
Lemma star_none : forall A p (k : string -> option A) a s, (forall b c r, a = b ++ String c r -> k (String c r ++ s) = None) -> star p k s = None -> star p k (a ++ s) = None.
Proof.
  induction a as [|c a IH]; intros s H E; [exact E|]. cbn [append star]. rewrite (IH s); [|intros b d r Ea; apply (H (String c b) d r); rewrite Ea; reflexivity|exact E].
  pose proof (H "" c a eq_refl) as X. cbn [append] in X. rewrite X. destruct (p c); reflexivity.
Qed.
Lemma all_blanks : forall p n, p " "%char = true -> all_of p (blanks n) = true.
Proof. intros p n H. induction n; [reflexivity|]. cbn [blanks all_of]. rewrite H. exact IHn. Qed.

(** Blanks, then a character that is none. *)
Lemma star_blanks : forall A (k : string -> option A) n c r, re_space c = false -> k (String " " "") = None ->
  (forall s, k (String " " s) = None) -> star re_space k (blanks n ++ String c r) = k (String c r).
Proof.
  intros A k n c r Hc _ Hk. induction n as [|n IH]; cbn [blanks append star].
  - rewrite Hc. reflexivity.
  - rewrite IH. change (re_space " ") with true. cbv iota. destruct (k (String c r)); [reflexivity|apply Hk].
Qed.
Lemma star_blanks_some : forall A (k : string -> option A) n c r x, re_space c = false -> k (String c r) = Some x ->
  star re_space k (blanks n ++ String c r) = Some x.
Proof.
  intros A k n c r x Hc H. apply star_some; [apply all_blanks; reflexivity|]. rewrite star_stop; [exact H|exact Hc].
Qed.
Lemma lit_blank : forall A w (k : string -> option A) s, match w with String c _ => c <> " "%char | EmptyString => False end -> lit w k (String " " s) = None.
Proof.
  intros A [|c w] k s H; [contradiction|]. unfold lit. cbn [drop_prefix]. destruct (Ascii.eqb c " ") eqn:E; [|reflexivity].
  apply Ascii.eqb_eq in E. congruence.
Qed.
Lemma lit_app : forall A w (k : string -> option A) s, lit w k (w ++ s) = k s.
Proof.
  intros A w k s. unfold lit. replace (drop_prefix w (w ++ s)) with (Some s); [reflexivity|].
  induction w as [|c w IH]; cbn [append drop_prefix]; [reflexivity|]. rewrite Ascii.eqb_refl. exact IH.
Qed.

Lemma dots_to_end : forall s, one_line s = true -> star re_dot (@Some string) s = Some "".
Proof.
  induction s as [|c s IH]; intro H; [reflexivity|]. cbn [one_line] in H. apply andb_true_iff in H. destruct H as [Hc H].
  cbn [star]. unfold re_dot at 1. rewrite Hc, (IH H). reflexivity.
Qed.
Lemma word_to_end : forall s, one_line s = true -> star re_nonspace (star re_dot (@Some string)) s = Some "".
Proof.
  induction s as [|c s IH]; intro H; [reflexivity|]. pose proof H as H0. cbn [one_line] in H. apply andb_true_iff in H. destruct H as [Hc H].
  cbn [star]. rewrite (IH H). destruct (re_nonspace c); [reflexivity|]. apply (dots_to_end (String c s) H0).
Qed.
Lemma line_to_end : forall s, line_text s = true -> after_line s = Some "".
Proof.
  intros [|c s] H; [discriminate|]. unfold line_text in H. cbn [first_of one_line] in H. apply andb_true_iff in H. destruct H as [H Hb].
  apply andb_true_iff in H. destruct H as [_ H]. unfold after_line. cbn [plus]. rewrite <- black_nonspace, Hb. apply word_to_end. exact H.
Qed.
Lemma after_line_end : forall s r, one_line s = true -> after_line s = Some r -> r = "".
Proof.
  intros [|c s] r H E; [discriminate|]. unfold after_line in E. cbn [plus] in E. destruct (re_nonspace c); [|discriminate].
  cbn [one_line] in H. apply andb_true_iff in H. rewrite (word_to_end s (proj2 H)) in E. congruence.
Qed.
Lemma substring_all : forall s, substring 0 (String.length s - 0) s = s.
Proof. intro s. rewrite Nat.sub_0_r. induction s as [|c s IH]; [reflexivity|]. cbn. rewrite IH. reflexivity. Qed.
Lemma capture_all : forall m s, m s = Some "" -> capture m s = Some s.
Proof. intros m s H. unfold capture. rewrite H. cbn [option_map String.length]. rewrite substring_all. reflexivity. Qed.

(** The optional beginning CREATE TABLE does not change what is matched. *)
Lemma star_result : forall A p (k : string -> option A) s x, star p k s = Some x -> exists a r, s = a ++ r /\ k r = Some x.
Proof.
  induction s as [|c s IH]; intros x H; [exists "", ""; split; [reflexivity|exact H]|]. cbn [star] in H. destruct (p c).
  - destruct (star p k s) eqn:E.
    + injection H as ->. destruct (IH _ eq_refl) as (a & r & Es & Ek). exists (String c a), r. split; [rewrite Es; reflexivity|exact Ek].
    + exists "", (String c s). split; [reflexivity|exact H].
  - exists "", (String c s). split; [reflexivity|exact H].
Qed.
Lemma plus_result : forall A p (k : string -> option A) s x, plus p k s = Some x -> exists a r, s = a ++ r /\ k r = Some x.
Proof.
  intros A p k [|c s] x H; [discriminate|]. cbn [plus] in H. destruct (p c); [|discriminate]. apply star_result in H.
  destruct H as (a & r & -> & H). exists (String c a), r. split; [reflexivity|exact H].
Qed.
Lemma lit_result : forall A w (k : string -> option A) s x, lit w k s = Some x -> exists r, s = w ++ r /\ k r = Some x.
Proof.
  intros A w k s x H. unfold lit in H. destruct (drop_prefix w s) as [r|] eqn:E; [|discriminate]. exists r. split; [|exact H].
  clear H. revert s E. induction w as [|c w IH]; intros s E; cbn [drop_prefix] in E; [injection E as ->; reflexivity|]. destruct s as [|d s]; [discriminate|].
  destruct (Ascii.eqb c d) eqn:Ec; [|discriminate]. apply Ascii.eqb_eq in Ec. subst d. cbn [append]. rewrite <- (IH s E). reflexivity.
Qed.
Lemma one_line_app : forall a b, one_line (a ++ b) = one_line a && one_line b.
Proof. induction a as [|c a IH]; intro b; [reflexivity|]. cbn [append one_line]. rewrite IH. apply andb_assoc. Qed.
Lemma table_capture : forall m, line_text m = true ->
  capture (opt (fun k => lit "CREATE" (plus re_space (lit "TABLE" (plus re_space k)))) after_line) m = Some m.
Proof.
  intros m H. apply capture_all. unfold opt. destruct (lit "CREATE" _ m) as [x|] eqn:E; [|apply line_to_end; exact H].
  unfold line_text in H. apply andb_true_iff in H. destruct H as [H _].
  apply lit_result in E. destruct E as (r & -> & E). apply plus_result in E. destruct E as (a & r' & -> & E).
  apply lit_result in E. destruct E as (r2 & -> & E). apply plus_result in E. destruct E as (a' & r3 & -> & E).
  rewrite !one_line_app in H. repeat (apply andb_true_iff in H; destruct H as [? H]). f_equal. apply (after_line_end r3); assumption.
Qed.

(** * The beginning of an annotation *)

Lemma tag_byte_facts : forall c, tag_byte c = true ->
  re_space c = false /\ Ascii.eqb c ":" = false /\ Ascii.eqb c "/" = false /\ Ascii.eqb c "*" = false /\ between 33 126 c = true.
Proof.
  intros c. destruct c as [[] [] [] [] [] [] [] []]; vm_compute; intro H; try discriminate; repeat split; reflexivity.
Qed.
Lemma good_tag_cons : forall tag, good_tag tag = true -> exists c r, tag = String c r /\ tag_byte c = true /\ all_of tag_byte r = true.
Proof.
  intros [|c r] H; [discriminate|]. unfold good_tag in H. cbn [all_of] in H. exists c, r. split; [reflexivity|].
  apply andb_true_iff in H. destruct H as [H _]. apply andb_true_iff in H. exact H.
Qed.
Lemma mark_none : forall A (k : string -> option A) c r, Ascii.eqb c "/" = false -> re_mark k (String c r) = k (String c r).
Proof.
  intros A k c r H. rewrite Ascii.eqb_sym in H. unfold re_mark, opt, alt, lit. cbn [drop_prefix]. rewrite H. reflexivity.
Qed.

Definition separator {A} (k : string -> option A) : string -> option A := fun s =>
  match s with String c r => if Ascii.eqb c ":"%char || Ascii.eqb c " "%char then star re_space k r else None | EmptyString => None end.
Definition colon_word {A} (word suffix : string) (k : string -> option A) : string -> option A :=
  star re_space (lit ":" (star re_space (lit word (opt (lit suffix) (star re_space (separator k)))))).
Lemma entry_eq : forall A word suffix (k : string -> option A) s, re_entry word suffix k s = star re_space (re_mark (plus re_nonspace (colon_word word suffix k))) s.
Proof. reflexivity. Qed.

Lemma colon_word_plain : forall A word suffix (k : string -> option A) c r, re_space c = false -> Ascii.eqb c ":" = false -> colon_word word suffix k (String c r) = None.
Proof.
  intros A word suffix k c r Hs Hc. unfold colon_word. rewrite star_stop by exact Hs. unfold lit at 1. cbn [drop_prefix].
  rewrite Ascii.eqb_sym, Hc. reflexivity.
Qed.
Lemma tag_tail : forall b c r tag, all_of tag_byte tag = true -> tag = b ++ String c r -> tag_byte c = true.
Proof.
  induction b as [|x b IH]; intros c r tag H E; subst tag; cbn [append all_of] in H; apply andb_true_iff in H; destruct H as [Hc H]; [exact Hc|].
  apply (IH c r _ H eq_refl).
Qed.

(** A tag, then what is not of the form wanted. *)
Lemma star_tag : forall A word suffix (k : string -> option A) tag s, all_of tag_byte tag = true ->
  star re_nonspace (colon_word word suffix k) (tag ++ s) = star re_nonspace (colon_word word suffix k) s.
Proof.
  intros A word suffix k tag s H. destruct (star re_nonspace (colon_word word suffix k) s) as [x|] eqn:E.
  - apply star_some; [|exact E]. clear E. induction tag as [|c tag IH]; [reflexivity|]. cbn [all_of] in H |- *.
    apply andb_true_iff in H. destruct H as [Hc H]. apply tag_byte_facts in Hc. unfold re_nonspace at 1. rewrite (proj1 Hc). exact (IH H).
  - apply star_none; [|exact E]. intros b c r Eb. pose proof (tag_tail b c r tag H Eb) as Hc. apply tag_byte_facts in Hc.
    cbn [append]. apply colon_word_plain; tauto.
Qed.
Lemma entry_tag : forall A word suffix (k : string -> option A) tag s, good_tag tag = true ->
  re_entry word suffix k (tag ++ s) = star re_nonspace (colon_word word suffix k) s.
Proof.
  intros A word suffix k tag s H. destruct (good_tag_cons tag H) as (c & r & -> & Hc & Hr). pose proof (tag_byte_facts c Hc) as (H1 & H2 & H3 & _).
  rewrite entry_eq. cbn [append]. rewrite star_stop by exact H1. rewrite mark_none by exact H3. cbn [plus]. unfold re_nonspace at 1. rewrite H1. cbn [negb].
  apply star_tag. exact Hr.
Qed.

(** What follows the tag. *)
Lemma after_tag : forall A word suffix (k : string -> option A) b c x rest, re_space x = false -> Ascii.eqb x ":" = false ->
  star re_nonspace (colon_word word suffix k) (blanks b ++ ":" ++ blanks (S c) ++ String x rest)
  = colon_word word suffix k (":" ++ blanks (S c) ++ String x rest).
Proof.
  intros A word suffix k b c x rest Hx Hx'.
  assert (forall n r, colon_word word suffix k (blanks n ++ String x r) = None) as N.
  { intros n r. unfold colon_word. rewrite star_blanks; [|exact Hx|apply lit_blank; discriminate|intro; apply lit_blank; discriminate].
    unfold lit at 1. cbn [drop_prefix]. rewrite Ascii.eqb_sym, Hx'. reflexivity. }
  destruct b as [|b].
  - cbn [blanks append star]. change (re_nonspace ":") with true. change (re_nonspace " ") with false. cbv iota.
    specialize (N (S c) rest). cbn [blanks append] in N. rewrite N. reflexivity.
  - rewrite star_stop by reflexivity. unfold colon_word.
    set (k' := lit ":" _). transitivity (k' (String ":" (blanks (S c) ++ String x rest))).
    + apply (star_blanks _ k' (S b) ":"%char); [reflexivity|apply lit_blank; discriminate|intro; apply lit_blank; discriminate].
    + symmetry. apply star_stop. reflexivity.
Qed.
Lemma colon_word_eq : forall A word suffix (k : string -> option A) n x r, re_space x = false ->
  match word with String c _ => c <> " "%char | EmptyString => False end ->
  colon_word word suffix k (":" ++ blanks n ++ String x r) = lit word (opt (lit suffix) (star re_space (separator k))) (String x r).
Proof.
  intros A word suffix k n x r Hx Hw. unfold colon_word. rewrite star_stop by reflexivity. unfold lit at 1. cbn [append drop_prefix].
  change (Ascii.eqb ":" ":") with true. cbv iota. apply star_blanks; [exact Hx|apply lit_blank; exact Hw|intro; apply lit_blank; exact Hw].
Qed.
Definition word_byte (c : ascii) : bool := negb (re_space c) && negb (Ascii.eqb c ":").
Lemma after_tag_word : forall A w s (k : string -> option A) b c word rest, first_of word_byte word = true ->
  match w with String c _ => c <> " "%char | EmptyString => False end ->
  star re_nonspace (colon_word w s k) (blanks b ++ ":" ++ blanks (S c) ++ word ++ rest) = lit w (opt (lit s) (star re_space (separator k))) (word ++ rest).
Proof.
  intros A w s k b c [|x word] rest H Hw; [discriminate|]. cbn [first_of] in H. unfold word_byte in H. apply andb_true_iff in H. destruct H as [H1 H2].
  apply negb_true_iff in H1, H2. change (String x word ++ rest) with (String x (word ++ rest)). rewrite after_tag by assumption. apply colon_word_eq; assumption.
Qed.
(** A separator and the text. *)
Lemma separated : forall A (k : string -> option A) d e m x, first_of black m = true -> k m = Some x ->
  star re_space (separator k) (blanks d ++ ":" ++ blanks e ++ m) = Some x.
Proof.
  intros A k d e [|c m] x H Hk; [discriminate|]. cbn [first_of] in H. rewrite black_nonspace in H. unfold re_nonspace in H. apply negb_true_iff in H.
  apply (star_blanks_some _ _ _ ":"%char); [reflexivity|]. cbn [separator]. change (Ascii.eqb ":" ":") with true. cbn [orb].
  apply star_blanks_some; assumption.
Qed.
Lemma not_suffix : forall A x suffix (k : string -> option A) d r, re_space x = false -> Ascii.eqb x ":" = false ->
  lit (String x suffix) k (blanks d ++ ":" ++ r) = None.
Proof.
  intros A x suffix k d r Hx Hc. destruct d; unfold lit; cbn [blanks append drop_prefix].
  - rewrite Hc. reflexivity.
  - destruct (Ascii.eqb x " ") eqn:E; [|reflexivity]. apply Ascii.eqb_eq in E. subst x. discriminate.
Qed.

Definition entry_words : list (string * string) := [("index", "es"); ("table", "s"); ("constraint", "s"); ("option", "s")].
Lemma entry_found : forall (k : string -> option string) w s word tag b c d e m, In (w, s) entry_words -> word = w \/ word = w ++ s ->
  good_tag tag = true -> line_text m = true -> k m = Some m ->
  re_entry w s k (tag ++ blanks b ++ ":" ++ blanks (S c) ++ word ++ blanks d ++ ":" ++ blanks e ++ m) = Some m.
Proof.
  intros k w s word tag b c d e m I Hw Ht Hm Hk. rewrite entry_tag by exact Ht.
  assert (first_of black m = true) as Hf by (unfold line_text in Hm; apply andb_true_iff in Hm; tauto).
  pose proof (separated _ k d e m m Hf Hk) as S.
  rewrite after_tag_word.
  2:{ cbn [In entry_words] in I. destruct I as [I|[I|[I|[I|[]]]]]; injection I as <- <-; destruct Hw as [->| ->]; reflexivity. }
  2:{ cbn [In entry_words] in I. destruct I as [I|[I|[I|[I|[]]]]]; injection I as <- <-; discriminate. }
  destruct Hw as [->| ->].
  - rewrite lit_app. unfold opt. cbn [In entry_words] in I. destruct I as [I|[I|[I|[I|[]]]]]; injection I as <- <-; rewrite not_suffix by reflexivity; exact S.
  - rewrite append_assoc, lit_app. unfold opt. rewrite lit_app, S. reflexivity.
Qed.
Lemma entry_other : forall A (k : string -> option A) w s w' s' word tag b c rest, In (w, s) entry_words -> In (w', s') entry_words -> w <> w' -> word = w' \/ word = w' ++ s' ->
  good_tag tag = true -> re_entry w s k (tag ++ blanks b ++ ":" ++ blanks (S c) ++ word ++ rest) = None.
Proof.
  intros A k w s w' s' word tag b c rest I I' N Hw Ht. rewrite entry_tag by exact Ht.
  cbn [In entry_words] in I, I'. destruct I as [I|[I|[I|[I|[]]]]]; injection I as <- <-; destruct I' as [I'|[I'|[I'|[I'|[]]]]]; injection I' as <- <-; try congruence;
    (destruct Hw as [->| ->]; rewrite after_tag_word by (reflexivity || discriminate); reflexivity).
Qed.

(** * Cleaning *)

Lemma strip_none : forall c r, between 33 126 c = true -> strip_one spaces (String c r) = None.
Proof.
  intros c r H. assert (forall ps, forallb (fun p => match p with String b _ => negb (between 33 126 b) | EmptyString => false end) ps = true -> strip_one ps (String c r) = None) as K.
  { induction ps as [|p ps IH]; intro F; [reflexivity|]. cbn [forallb] in F. apply andb_true_iff in F. destruct F as [Fp F]. cbn [strip_one].
    destruct p as [|b p]; [discriminate|]. cbn [drop_prefix]. destruct (Ascii.eqb b c) eqn:E; [apply Ascii.eqb_eq in E; subst b; rewrite H in Fp; discriminate|]. apply IH. exact F. }
  apply K. vm_compute. reflexivity.
Qed.
Lemma strip_blank : forall s, strip_one spaces (String " " s) = Some s.
Proof. intro s. destruct s; reflexivity. Qed.
Lemma strip_blanks : forall a n s, (strip_one spaces s = None) -> a <= n -> strip_all spaces n (blanks a ++ s) = s.
Proof.
  induction a as [|a IH]; intros n s H L.
  - cbn [blanks append]. destruct n; [reflexivity|]. cbn [strip_all]. rewrite H. reflexivity.
  - destruct n as [|n]; [lia|]. cbn [blanks append strip_all]. rewrite strip_blank. apply IH; [exact H|lia].
Qed.
Lemma blanks_length : forall a s, a <= String.length (blanks a ++ s).
Proof. induction a; intro s; cbn; [lia|]. specialize (IHa s). lia. Qed.
Lemma trim_blanks : forall a s, strip_one spaces s = None -> trim_head (blanks a ++ s) = s.
Proof. intros a s H. apply strip_blanks; [exact H|apply blanks_length]. Qed.
Lemma trim_prefix_other : forall p q s x, Ascii.eqb p x = false -> match s with String c _ => c = x | EmptyString => True end -> trim_prefix (String p q) s = s.
Proof.
  intros p q s x H E. unfold trim_prefix. destruct s as [|c s]; [reflexivity|]. subst c. cbn [drop_prefix]. rewrite H. reflexivity.
Qed.
Lemma clean_line : forall a c r, between 33 126 c = true -> Ascii.eqb c "/" = false -> Ascii.eqb c "*" = false ->
  clean ("//" ++ blanks a ++ String c r) = String c r.
Proof.
  intros a c r Hc H1 H2. unfold clean. change (trim_prefix "//" ("//" ++ blanks a ++ String c r)) with (blanks a ++ String c r).
  rewrite Ascii.eqb_sym in H1, H2.
  destruct a as [|a].
  - cbn [blanks append]. rewrite (trim_prefix_other _ _ (String c r) c H1 eq_refl). rewrite (trim_prefix_other _ _ (String c r) c H2 eq_refl).
    change (String c r) with (blanks 0 ++ String c r) at 1. apply trim_blanks. apply strip_none. exact Hc.
  - rewrite (trim_prefix_other "/"%char "*" (blanks (S a) ++ String c r) " "%char eq_refl eq_refl). rewrite (trim_prefix_other "*"%char "/" (blanks (S a) ++ String c r) " "%char eq_refl eq_refl).
    apply trim_blanks. apply strip_none. exact Hc.
Qed.
Lemma clean_blank : forall a, clean ("//" ++ blanks a) = "".
Proof.
  intro a. unfold clean. change (trim_prefix "//" ("//" ++ blanks a)) with (blanks a).
  destruct a as [|a]; [reflexivity|].
  rewrite (trim_prefix_other "/"%char "*" (blanks (S a)) " "%char eq_refl eq_refl). rewrite (trim_prefix_other "*"%char "/" (blanks (S a)) " "%char eq_refl eq_refl).
  rewrite <- (append_empty (blanks (S a))). apply trim_blanks. reflexivity.
Qed.

(** * Remarks *)

Lemma entry_nothing : forall A w s (k : string -> option A), re_entry w s k "" = None.
Proof. reflexivity. Qed.
Lemma not_contains_cons : forall c s, contains ":" (String c s) = false -> Ascii.eqb c ":" = false /\ contains ":" s = false.
Proof.
  intros c s H. unfold contains in *. cbn [before_mark] in H. destruct (Ascii.eqb c ":") eqn:E.
  - apply Ascii.eqb_eq in E. subst c. destruct s; discriminate.
  - split; [reflexivity|]. destruct (before_mark ":" s); [|reflexivity].
    destruct (String.prefix ":" (String c s)); discriminate.
Qed.
Lemma entry_remark : forall A w s (k : string -> option A) c word rest, all_of black (String c word) = true -> contains ":" (String c word) = false -> Ascii.eqb c "/" = false ->
  rest = "" \/ (exists n x r, rest = blanks (S n) ++ String x r /\ black x = true /\ x <> ":"%char) ->
  re_entry w s k (String c (word ++ rest)) = None.
Proof.
  intros A w s k c word rest Hb Hc Hs Hr. rewrite entry_eq. cbn [all_of] in Hb. apply andb_true_iff in Hb. destruct Hb as [Hb Hw].
  rewrite black_nonspace in Hb. pose proof Hb as Hb'. unfold re_nonspace in Hb'. apply negb_true_iff in Hb'.
  rewrite star_stop by exact Hb'. rewrite mark_none by exact Hs. cbn [plus]. rewrite Hb.
  apply not_contains_cons in Hc. destruct Hc as [_ Hc].
  assert (forall b, all_of black b = true -> contains ":" b = false -> forall b' x r, b = b' ++ String x r -> re_space x = false /\ Ascii.eqb x ":" = false) as T.
  { clear. induction b as [|y b IH]; intros Hb Hc b' x r E; [destruct b'; discriminate|]. cbn [all_of] in Hb. apply andb_true_iff in Hb. destruct Hb as [Hy Hb].
    apply not_contains_cons in Hc. destruct Hc as [Hy' Hc]. destruct b' as [|z b']; injection E as -> E.
    - split; [|exact Hy']. rewrite black_nonspace in Hy. unfold re_nonspace in Hy. apply negb_true_iff in Hy. exact Hy.
    - apply (IH Hb Hc b' x r E). }
  apply star_none.
  - intros b x r E. destruct (T word Hw Hc b x r E) as [T1 T2]. cbn [append]. apply colon_word_plain; assumption.
  - destruct Hr as [->|(n & x & r & -> & Hx & Hx')]; [reflexivity|]. rewrite star_stop by reflexivity. unfold colon_word.
    rewrite black_nonspace in Hx. unfold re_nonspace in Hx. apply negb_true_iff in Hx.
    rewrite star_blanks; [|exact Hx|apply lit_blank; discriminate|intro; apply lit_blank; discriminate].
    unfold lit at 1. cbn [drop_prefix]. destruct (Ascii.eqb ":" x) eqn:E; [apply Ascii.eqb_eq in E; congruence|reflexivity].
Qed.

(** * The statement of an annotation *)

Definition succeeds {A} (k : string -> option A) (s : string) : Prop := exists x, k s = Some x.
Lemma star_succeeds : forall A p (k : string -> option A) a s, all_of p a = true -> succeeds k s -> succeeds (star p k) (a ++ s).
Proof.
  intros A p k a s Ha (x & Hx). assert (exists y, star p k s = Some y) as (y & Hy).
  { destruct s as [|c r]; [exists x; exact Hx|]. cbn [star]. destruct (p c); [destruct (star p k r) as [y|]; [exists y; reflexivity|]|]; exists x; exact Hx. }
  exists y. apply star_some; assumption.
Qed.
Lemma plus_succeeds : forall A p (k : string -> option A) a s, a <> "" -> all_of p a = true -> succeeds k s -> succeeds (plus p k) (a ++ s).
Proof.
  intros A p k [|c a] s N Ha H; [congruence|]. cbn [all_of] in Ha. apply andb_true_iff in Ha. destruct Ha as [Hc Ha].
  unfold succeeds. cbn [append plus]. rewrite Hc. apply (star_succeeds _ _ _ _ _ Ha H).
Qed.
Lemma lit_fold_succeeds : forall A w v (k : string -> option A) s, to_upper v = to_upper w -> succeeds k s -> succeeds (lit_fold w k) (v ++ s).
Proof.
  intros A w v k s E H. unfold succeeds, lit_fold. replace (drop_prefix_fold w (v ++ s)) with (Some s); [exact H|].
  revert v E. induction w as [|a w IH]; intros [|b v] E; try discriminate; [reflexivity|]. cbn [to_upper] in E. injection E as E1 E2.
  cbn [append drop_prefix_fold]. rewrite E1, Ascii.eqb_refl. apply IH. exact E2.
Qed.
Lemma lit_fold_result : forall A w (k : string -> option A) s x, lit_fold w k s = Some x -> exists v r, s = v ++ r /\ to_upper v = to_upper w /\ k r = Some x.
Proof.
  intros A w k s x H. unfold lit_fold in H. destruct (drop_prefix_fold w s) as [r|] eqn:E; [|discriminate].
  assert (exists v, s = v ++ r /\ to_upper v = to_upper w) as (v & E1 & E2); [|exists v, r; split; [exact E1|split; [exact E2|exact H]]].
  clear H. revert s E. induction w as [|a w IH]; intros s E; cbn [drop_prefix_fold] in E; [exists ""; injection E as ->; split; reflexivity|].
  destruct s as [|b s]; [discriminate|]. destruct (Ascii.eqb (upper_byte a) (upper_byte b)) eqn:Ec; [|discriminate]. apply Ascii.eqb_eq in Ec.
  destruct (IH s E) as (v & -> & Ev). exists (String b v). split; [reflexivity|]. cbn [to_upper]. rewrite Ev, Ec. reflexivity.
Qed.
Lemma plus_space_result : forall A (k : string -> option A) s x, plus re_space k s = Some x -> exists c r, s = String c r /\ re_space c = true.
Proof. intros A k [|c s] x H; [discriminate|]. cbn [plus] in H. destruct (re_space c) eqn:E; [|discriminate]. exists c, s. split; [reflexivity|exact E]. Qed.
Lemma search_result : forall A (m : string -> option A) s, search m s = true -> exists a r x, s = a ++ r /\ m r = Some x.
Proof.
  induction s as [|c s IH]; intro H; cbn [search] in H.
  - destruct (m "") as [x|] eqn:E; [|discriminate]. exists "", "", x. split; [reflexivity|exact E].
  - destruct (m (String c s)) as [x|] eqn:E; [exists "", (String c s), x; split; [reflexivity|exact E]|].
    destruct (IH H) as (a & r & x & -> & Hx). exists (String c a), r, x. split; [reflexivity|exact Hx].
Qed.
Lemma search_here : forall A (m : string -> option A) s, succeeds m s -> search m s = true.
Proof. intros A m [|c s] (x & H); cbn [search]; rewrite H; reflexivity. Qed.

Lemma to_upper_app : forall a b, to_upper (a ++ b) = to_upper a ++ to_upper b.
Proof. induction a as [|c a IH]; intro b; [reflexivity|]. cbn [append to_upper]. rewrite IH. reflexivity. Qed.
Lemma all_of_app : forall f a b, all_of f (a ++ b) = all_of f a && all_of f b.
Proof. induction a as [|c a IH]; intro b; [reflexivity|]. cbn [append all_of]. rewrite IH. apply andb_assoc. Qed.
Lemma create_result : forall word s, search (re_create word) s = true ->
  exists a v c r, s = a ++ v ++ String c r /\ to_upper v = "CREATE" /\ re_space c = true.
Proof.
  intros word s H. apply search_result in H. destruct H as (a & r & x & -> & H). unfold re_create in H.
  apply star_result in H. destruct H as (a' & r' & -> & H). apply lit_fold_result in H. destruct H as (v & r2 & -> & Ev & H).
  apply plus_space_result in H. destruct H as (c & r3 & -> & Hc). exists (a ++ a'), v, c, r3. rewrite !append_assoc. split; [reflexivity|split; [exact Ev|exact Hc]].
Qed.
Lemma one_line_dots : forall s, one_line s = true -> all_of re_dot s = true.
Proof. induction s as [|c s IH]; intro H; [reflexivity|]. cbn [one_line all_of] in *. apply andb_true_iff in H. destruct H as [Hc H]. unfold re_dot at 1. rewrite Hc. exact (IH H). Qed.

Lemma set_create_told : forall word m c, In word ["TABLE"; "INDEX"] -> creates word m c -> set_create word m = c.
Proof.
  intros word m c I H. unfold set_create. destruct H as [m H|c k kind w rest Hc Hw Hk Hr].
  - destruct (search (re_create word) m) eqn:E; [|reflexivity]. exfalso. apply create_result in E. destruct E as (a & v & x & r & -> & Ev & Hx).
    destruct H as [H|H].
    + rewrite !to_upper_app, Ev in H. rewrite contains_part in H; [discriminate|reflexivity].
    + rewrite !all_of_app in H. cbn [all_of] in H. rewrite black_nonspace in H. unfold re_nonspace in H. rewrite Hx in H. cbn [negb andb] in H. rewrite !andb_false_r in H. discriminate.
  - rewrite search_here; [reflexivity|]. unfold re_create.
    assert (to_upper word = word) as Ew by (destruct I as [<-|[<-|[]]]; reflexivity).
    change (c ++ blanks (S k) ++ kind ++ w ++ " " ++ rest) with ("" ++ (c ++ blanks (S k) ++ kind ++ w ++ " " ++ rest)).
    apply star_succeeds; [reflexivity|]. apply lit_fold_succeeds; [exact Hc|]. apply plus_succeeds; [discriminate|apply all_blanks; reflexivity|].
    apply star_succeeds; [apply one_line_dots; exact Hk|]. apply lit_fold_succeeds; [rewrite Ew; exact Hw|]. apply plus_succeeds; [discriminate|reflexivity|].
    change rest with ("" ++ rest). apply star_succeeds; [reflexivity|]. destruct rest as [|x rest]; [discriminate|].
    unfold line_text in Hr. apply andb_true_iff in Hr. destruct Hr as [_ Hx]. cbn [first_of] in Hx. rewrite black_nonspace in Hx.
    change (String x rest) with (String x "" ++ rest). apply plus_succeeds; [discriminate|cbn [all_of]; rewrite Hx; reflexivity|exists rest; reflexivity].
Qed.

(** * Lines *)

(** What the generator takes a cleaned line for. *)
Definition note_of (c : string) : note :=
  match match_index c with
  | Some m => NIndex (set_create "INDEX" m)
  | None => match match_table c with
            | Some m => NTable (set_create "TABLE" m)
            | None => match match_constraint c with
                      | Some m => NConstraint m
                      | None => match match_option c with Some m => NOption m | None => NRemark end
                      end
            end
  end.
Lemma clean_annotation : forall tag a s, good_tag tag = true -> clean ("//" ++ blanks a ++ tag ++ s) = tag ++ s.
Proof.
  intros tag a s H. destruct (good_tag_cons tag H) as (c & r & -> & Hc & _). apply tag_byte_facts in Hc.
  apply clean_line; tauto.
Qed.
Lemma line_note : forall tag line n, good_tag tag = true -> line_says tag line n -> note_of (clean line) = n.
Proof.
  intros tag line n T H. destruct H as [word m c line Hw Hm Hc (a & b & cc & d & e & ->)|word m c line Hw Hm Hc (a & b & cc & d & e & ->)|word m line Hw Hm (a & b & cc & d & e & ->)|word m line Hw Hm (a & b & cc & d & e & ->)|a w rest line Hb Hc Hf Hr ->|a].
  1-4: rewrite (clean_annotation tag a _ T); unfold note_of.
  - unfold match_index. rewrite (entry_found _ "index" "es"); try assumption; [|left; reflexivity|apply capture_all, line_to_end; exact Hm].
    rewrite (set_create_told "INDEX" m c); [reflexivity|right; left; reflexivity|exact Hc].
  - unfold match_index. rewrite (entry_other _ _ "index" "es" "table" "s"); try assumption; [|left; reflexivity|right; left; reflexivity|discriminate].
    unfold match_table. rewrite (entry_found _ "table" "s"); try assumption; [|right; left; reflexivity|apply table_capture; exact Hm].
    rewrite (set_create_told "TABLE" m c); [reflexivity|left; reflexivity|exact Hc].
  - unfold match_index. rewrite (entry_other _ _ "index" "es" "constraint" "s"); try assumption; [|left; reflexivity|do 2 right; left; reflexivity|discriminate].
    unfold match_table. rewrite (entry_other _ _ "table" "s" "constraint" "s"); try assumption; [|right; left; reflexivity|do 2 right; left; reflexivity|discriminate].
    unfold match_constraint. rewrite (entry_found _ "constraint" "s"); try assumption; [reflexivity|do 2 right; left; reflexivity|apply capture_all, line_to_end; exact Hm].
  - unfold match_index. rewrite (entry_other _ _ "index" "es" "option" "s"); try assumption; [|left; reflexivity|do 3 right; left; reflexivity|discriminate].
    unfold match_table. rewrite (entry_other _ _ "table" "s" "option" "s"); try assumption; [|right; left; reflexivity|do 3 right; left; reflexivity|discriminate].
    unfold match_constraint. rewrite (entry_other _ _ "constraint" "s" "option" "s"); try assumption; [|do 2 right; left; reflexivity|do 3 right; left; reflexivity|discriminate].
    unfold match_option. rewrite (entry_found _ "option" "s"); try assumption; [reflexivity|do 3 right; left; reflexivity|apply capture_all, line_to_end; exact Hm].
  - destruct w as [|c w]; [discriminate|]. cbn [first_of] in Hf. apply andb_true_iff in Hf. destruct Hf as [Hf H2]. apply andb_true_iff in Hf. destruct Hf as [Hf H1].
    apply negb_true_iff in H1, H2. change (String c w ++ rest) with (String c (w ++ rest)). rewrite clean_line by assumption.
    unfold note_of, match_index, match_table, match_constraint, match_option. rewrite !entry_remark by assumption. reflexivity.
  - rewrite clean_blank. reflexivity.
Qed.

(** Which groups are annotated. *)
Lemma tag_missing : forall tag w rest, all_of tag_byte tag = true -> all_of black w = true -> contains ":" w = false ->
  rest = "" \/ (exists n x r, rest = blanks (S n) ++ String x r /\ black x = true /\ x <> ":"%char) ->
  lit tag (star re_space (lit ":" (@Some string))) (w ++ rest) = None.
Proof.
  induction tag as [|c tag IH]; intros w rest Ht Hw Hc Hr.
  - unfold lit at 1. cbn [drop_prefix]. destruct w as [|x w].
    + cbn [append]. destruct Hr as [->|(n & x & r & -> & Hx & Hx')]; [reflexivity|]. rewrite black_nonspace in Hx. unfold re_nonspace in Hx. apply negb_true_iff in Hx.
      rewrite star_blanks; [|exact Hx|reflexivity|reflexivity]. unfold lit. cbn [drop_prefix]. destruct (Ascii.eqb ":" x) eqn:E; [apply Ascii.eqb_eq in E; congruence|reflexivity].
    + cbn [all_of] in Hw. apply andb_true_iff in Hw. destruct Hw as [Hx Hw]. rewrite black_nonspace in Hx. unfold re_nonspace in Hx. apply negb_true_iff in Hx.
      apply not_contains_cons in Hc. cbn [append]. rewrite star_stop by exact Hx. unfold lit. cbn [drop_prefix]. rewrite Ascii.eqb_sym, (proj1 Hc). reflexivity.
  - cbn [all_of] in Ht. apply andb_true_iff in Ht. destruct Ht as [Htc Ht]. pose proof (tag_byte_facts c Htc) as (F1 & F2 & _). destruct w as [|x w].
    + cbn [append]. destruct Hr as [->|(n & x & r & -> & Hx & Hx')]; [reflexivity|]. cbn [blanks append]. apply lit_blank. intros ->. discriminate.
    + cbn [all_of] in Hw. apply andb_true_iff in Hw. destruct Hw as [Hx Hw]. apply not_contains_cons in Hc. unfold lit. cbn [append drop_prefix].
      destruct (Ascii.eqb c x); [|reflexivity]. apply (IH w rest Ht Hw (proj2 Hc) Hr).
Qed.
Lemma match_tag_slashes : forall tag a s, good_tag tag = true -> strip_one spaces s = None -> (match s with String c _ => Ascii.eqb c "/" = false /\ re_space c = false | EmptyString => True end) ->
  match_tag tag ("//" ++ blanks a ++ s) = match lit tag (star re_space (lit ":" (@Some string))) s with Some _ => true | None => false end.
Proof.
  intros tag a s T _ Hs. destruct (good_tag_cons tag T) as (c & r & E & Hc & _). apply tag_byte_facts in Hc. destruct Hc as (C1 & C2 & C3 & _).
  unfold match_tag. set (k := lit tag _). rewrite star_stop by reflexivity. unfold re_mark, opt, alt.
  replace (lit "/" (plus (Ascii.eqb "/") (star re_space k)) ("//" ++ blanks a ++ s)) with (k s).
  2:{ unfold lit at 1. cbn [append drop_prefix]. change (Ascii.eqb "/" "/") with true. cbv iota. cbn [plus]. change (Ascii.eqb "/" "/") with true. cbv iota.
      assert (k "" = None) as K0 by (subst k tag; reflexivity).
      assert (forall x, k (String " " x) = None) as K1 by (intro; subst k tag; apply lit_blank; intros ->; discriminate).
      rewrite star_stop.
      2:{ destruct a; cbn [blanks append]; [|reflexivity]. destruct s as [|x s]; [exact I|]. rewrite Ascii.eqb_sym. tauto. }
      destruct s as [|x s].
      - rewrite K0, append_empty. clear - K0 K1. induction a as [|a IH]; cbn [blanks star]; [congruence|]. rewrite <- IH. symmetry. apply K1.
      - symmetry. apply star_blanks; [tauto|apply K1|exact K1]. }
  destruct (k s) as [x|]; [reflexivity|]. unfold lit at 1. cbn [append drop_prefix]. change (Ascii.eqb "*" "/") with false. change (Ascii.eqb "/" "/") with true. cbv iota.
  unfold k, lit at 1. rewrite E. cbn [drop_prefix]. rewrite C3. reflexivity.
Qed.
Lemma line_tagged : forall tag line n, good_tag tag = true -> line_says tag line n -> match_tag tag line = match n with NRemark => false | _ => true end.
Proof.
  intros tag line n T H.
  assert (forall word m line, annotation tag word m line -> match_tag tag line = true) as K.
  { intros word m l (a & b & c & d & e & ->). destruct (good_tag_cons tag T) as (x & r & E & Hx & _). apply tag_byte_facts in Hx.
    rewrite match_tag_slashes; [|exact T|rewrite E; apply strip_none; tauto|rewrite E; cbn [append]; tauto].
    rewrite lit_app. destruct (star_succeeds _ re_space (lit ":" (@Some string)) (blanks b) (":" ++ blanks (S c) ++ word ++ blanks d ++ ":" ++ blanks e ++ m)) as (y & ->);
      [apply all_blanks; reflexivity|eexists; reflexivity|reflexivity]. }
  destruct H as [word m c line Hw Hm Hc Ha|word m c line Hw Hm Hc Ha|word m line Hw Hm Ha|word m line Hw Hm Ha|a w rest line Hb Hc Hf Hr ->|a]; try (exact (K _ _ _ Ha)).
  - rewrite match_tag_slashes; [| exact T| |].
    + unfold good_tag in T. apply andb_true_iff in T. rewrite tag_missing; tauto.
    + destruct w as [|c w]; [discriminate|]. cbn [first_of] in Hf. apply strip_none. apply andb_true_iff in Hf. destruct Hf as [Hf _]. apply andb_true_iff in Hf. tauto.
    + destruct w as [|c w]; [discriminate|]. cbn [append]. cbn [first_of all_of] in Hf, Hb. apply andb_true_iff in Hf. destruct Hf as [Hf _]. apply andb_true_iff in Hf. destruct Hf as [_ Hf].
      apply negb_true_iff in Hf. split; [exact Hf|]. apply andb_true_iff in Hb. destruct Hb as [Hb _]. rewrite black_nonspace in Hb. unfold re_nonspace in Hb. apply negb_true_iff in Hb. exact Hb.
  - rewrite <- (append_empty (blanks a)). rewrite match_tag_slashes; [|exact T|reflexivity|exact I]. destruct (good_tag_cons tag T) as (x & r & -> & _). reflexivity.
Qed.

(** * Comment groups *)

Lemma last_cons : forall A l (a d : A), last (a :: l) d = last l a.
Proof. induction l as [|b l IH]; intros a d; [reflexivity|]. change (last (a :: b :: l) d) with (last (b :: l) d). rewrite (IH b d), (IH b a). reflexivity. Qed.
Lemma read_comments_notes : forall file g l t out, (forall c, In c l -> exists x, In x g /\ c = clean (cl_text x)) ->
  exists t' out', read_comments file g l (t, out) = Ok (t', out')
    /\ g_create t' = last (table_notes (map note_of l)) (g_create t) /\ g_columns t' = g_columns t /\ g_pk t' = g_pk t
    /\ g_constraints t' = (g_constraints t ++ map (mkGText []) (constraint_notes (map note_of l)))%list
    /\ g_options t' = (g_options t ++ map (mkGText []) (option_notes (map note_of l)))%list
    /\ map bare out' = (map bare out ++ indexes_of (map note_of l))%list.
Proof.
  induction l as [|c l IH]; intros t out Hc.
  - exists t, out. cbn. rewrite !app_nil_r. repeat split; reflexivity.
  - cbn [read_comments map]. destruct (Hc c (or_introl eq_refl)) as (x & Ix & Ex).
    assert (forall c, In c l -> exists x, In x g /\ c = clean (cl_text x)) as Hc' by (intros c' I; apply Hc; right; exact I).
    unfold read_comment, note_of. destruct (match_index c) as [m|].
    + subst c. destruct (containing_clean g x Ix) as (y & -> & Iy). cbn [bind].
      match goal with |- context [read_comments _ _ _ (?u, ?o)] => destruct (IH u o Hc') as (t' & out' & E & H1 & H2 & H3 & H4 & H5 & H6) end.
      exists t', out'. split; [exact E|]. cbn [table_notes constraint_notes option_notes flat_map app]. do 5 (split; [assumption|]).
      rewrite H6, map_app, <- app_assoc. reflexivity.
    + cbn [bind].
      match goal with |- context [read_comments _ _ _ (?u, ?o)] => destruct (IH u o Hc') as (t' & out' & E & H1 & H2 & H3 & H4 & H5 & H6) end.
      exists t', out'. split; [exact E|]. clear E IH.
      destruct (match_table c) as [m|]; [|destruct (match_constraint c) as [m|]; [|destruct (match_option c) as [m|]]];
        cbn [add_comment set_table add_constraint add_option g_create g_columns g_pk g_constraints g_options] in *;
        unfold table_notes, constraint_notes, option_notes, indexes_of, index_notes in *; cbn [flat_map app map]; rewrite ?last_cons;
        rewrite H1, H2, H3, H4, H5, H6; rewrite <- ?app_assoc; repeat split; reflexivity.
Qed.

(** * Fields *)

Lemma contains_cons_false : forall q c s, contains (String q "") (String c s) = false -> Ascii.eqb q c = false /\ contains (String q "") s = false.
Proof.
  intros q c s H. unfold contains in *. cbn [before_mark] in H. destruct (Ascii.eqb q c) eqn:E.
  - apply Ascii.eqb_eq in E. subst c. cbn [String.prefix] in H. destruct (ascii_dec q q); [destruct s; discriminate|congruence].
  - split; [reflexivity|]. destruct (before_mark (String q "") s); [|reflexivity].
    destruct (String.prefix (String q "") (String c s)); discriminate.
Qed.
Lemma trim_tag : forall q s, contains (String q "") s = false -> trim_byte q (String q "" ++ s ++ String q "") = s.
Proof.
  intros q s H. unfold trim_byte. cbn [append trim_left_byte]. rewrite Ascii.eqb_refl.
  assert (forall x, contains (String q "") x = false -> trim_right_byte q (x ++ String q "") = x) as R.
  { induction x as [|c x IH]; intro Hx; [cbn [append trim_right_byte]; rewrite Ascii.eqb_refl; reflexivity|].
    apply contains_cons_false in Hx. destruct Hx as [Hc Hx]. cbn [append trim_right_byte]. rewrite (IH Hx). destruct x; [rewrite Hc; reflexivity|reflexivity]. }
  destruct s as [|c s]; [cbn [append trim_left_byte]; rewrite Ascii.eqb_refl; reflexivity|].
  cbn [append trim_left_byte]. rewrite (proj1 (contains_cons_false _ _ _ H)). apply (R (String c s) H).
Qed.

Definition bare_columns (l : list gcolumn) : list gcolumn := map (fun c => mkGColumn [] (gc_name c) (gc_type c)) l.
Definition told_columns (l : list (string * string * bool)) : list gcolumn := map (fun c => mkGColumn [] (fst (fst c)) (snd (fst c))) l.
Lemma not_void_eqb : forall s, ~ void s -> String.eqb s "" = false /\ String.eqb s "-" = false.
Proof. intros s H. split; apply String.eqb_neq; intro E; apply H; [left|right]; exact E. Qed.
Lemma read_field_told : forall cfg look ty t f o, told cfg look f o -> exists t', read_field cfg look ty t f = Ok t'
  /\ bare_columns (g_columns t') = (bare_columns (g_columns t) ++ told_columns (kept [o]))%list
  /\ g_pk t' = (g_pk t ++ key_names (kept [o]))%list.
Proof.
  intros cfg look ty t f o H.
  assert (forall column type pk, tag_says cfg look f column type pk -> exists v, f_tag f = Some v
    /\ look (trim_byte ch_bquote v) (column_tag cfg) = column /\ look (trim_byte ch_bquote v) (ddl_tag cfg) = type /\ look (trim_byte ch_bquote v) (pk_tag cfg) = pk) as T.
  { intros column type pk (tag & E & N & L). exists (bquote ++ tag ++ bquote). split; [exact E|]. change bquote with (String ch_bquote "").
    rewrite trim_tag by exact N. exact L. }
  assert (forall name names column column' type pk key comments0, f_names f = name :: names -> tag_says cfg look f column type pk -> ~ void type -> (key = true <-> pk = "true" \/ pk = "1") ->
     exists t', (let type_constraint := type in
             if String.eqb type_constraint "" || String.eqb type_constraint "-" then Ok t
             else
               let primary := String.eqb pk "true" || String.eqb pk "1" in
               let t := if primary then add_pk t column' else t in
               bind (if primary || String.eqb pk "" || String.eqb pk "-" then Ok comments0
                     else bind (first_name f) (fun n => Ok (comments0 ++ [msg_primary n (pk_tag cfg)])%list))
                 (fun comments =>
                    let doc := split nl (trim_byte ch_nl (f_doc f)) in
                    Ok (add_column t (mkGColumn (comments ++ trim_tail_empty (trim_has_prefix doc (ddl_tag cfg)))%list column' type_constraint)))) = Ok t'
     /\ bare_columns (g_columns t') = (bare_columns (g_columns t) ++ told_columns [(column', type, key)])%list
     /\ g_pk t' = (g_pk t ++ key_names [(column', type, key)])%list) as K.
  { intros name names column column' type pk key comments0 Hn Ht Hv Hk. cbv zeta. destruct (not_void_eqb type Hv) as [-> ->]. cbn [orb].
    assert (String.eqb pk "true" || String.eqb pk "1" = key) as ->.
    { destruct key.
      - destruct (proj1 Hk eq_refl) as [->| ->]; reflexivity.
      - destruct (String.eqb pk "true") eqn:E1; [apply String.eqb_eq in E1; exfalso; discriminate (proj2 Hk (or_introl E1))|].
        destruct (String.eqb pk "1") eqn:E2; [apply String.eqb_eq in E2; exfalso; discriminate (proj2 Hk (or_intror E2))|]. reflexivity. }
    unfold first_name. rewrite Hn. cbn [bind].
    destruct key; cbn [orb]; [|destruct (String.eqb pk "" || String.eqb pk "-")]; cbn [bind]; (eexists; split; [reflexivity|]);
      cbn [add_column add_pk g_columns g_pk]; unfold bare_columns; rewrite map_app; split; try reflexivity; cbn; rewrite app_nil_r; reflexivity. }
  destruct H as [name names type pk Hn Ht|name names column type pk Hn Ht Hv|name names column type pk Hn Ht Hc Hv key Hk|name names type pk Hn Ht Hv key Hk];
    destruct (T _ _ _ Ht) as (v & Ev & E1 & E2 & E3); unfold read_field; rewrite Ev; cbv zeta; rewrite E1, ?E2, ?E3.
  - cbn -[String.append]. unfold first_name. rewrite Hn. eexists. split; [reflexivity|]. cbn [add_comment g_columns g_pk]. rewrite !app_nil_r. split; reflexivity.
  - unfold first_name. rewrite Hn. cbn [kept flat_map app told_columns map key_names filter]. rewrite !app_nil_r.
    assert (String.eqb type "" || String.eqb type "-" = true) as V by (destruct Hv as [->| ->]; reflexivity).
    destruct (String.eqb column "-"); [eexists; split; [reflexivity|split; reflexivity]|]. destruct (String.eqb column ""); cbn [bind]; rewrite V; (eexists; split; [reflexivity|split; reflexivity]).
  - destruct (not_void_eqb column Hc) as [C1 C2]. rewrite C2, C1. cbn [bind kept flat_map app]. apply (K name names column column type pk key []); assumption.
  - unfold first_name at 1 2. rewrite Hn. change (String.eqb "" "-") with false. change (String.eqb "" "") with true. cbv iota. cbn [bind kept flat_map app].
    apply (K name names "" name type pk key [msg_field_name ty name (column_tag cfg)]); assumption.
Qed.
Lemma kept_cons : forall A (o : option A) l, kept (o :: l) = (kept [o] ++ kept l)%list.
Proof. intros A o l. unfold kept. cbn [flat_map]. rewrite app_nil_r. reflexivity. Qed.
Lemma key_names_app : forall a b, key_names (a ++ b) = (key_names a ++ key_names b)%list.
Proof. intros a b. unfold key_names. rewrite filter_app, map_app. reflexivity. Qed.
Lemma read_fields_told : forall cfg look ty l cols, Forall2 (told cfg look) l cols -> forall t, exists t', read_fields cfg look ty l t = Ok t'
  /\ bare_columns (g_columns t') = (bare_columns (g_columns t) ++ told_columns (kept cols))%list
  /\ g_pk t' = (g_pk t ++ key_names (kept cols))%list.
Proof.
  intros cfg look ty l cols F. induction F as [|f o l cols H F IH]; intro t.
  - exists t. cbn. rewrite !app_nil_r. repeat split; reflexivity.
  - cbn [read_fields]. destruct (read_field_told cfg look ty t f o H) as (t1 & -> & C1 & K1). cbn [bind]. destruct (IH t1) as (t2 & -> & C2 & K2).
    exists t2. split; [reflexivity|]. rewrite kept_cons, C2, C1, K2, K1. unfold told_columns. rewrite map_app, key_names_app, <- !app_assoc. split; reflexivity.
Qed.

(** * Sources *)

Lemma bare_text_mk : forall l, map bare_text (map (mkGText []) l) = map (mkGText []) l.
Proof. induction l as [|x l IH]; [reflexivity|]. cbn [map]. rewrite IH. reflexivity. Qed.
Lemma group_notes : forall tag g notes, good_tag tag = true -> group_says tag g notes -> map note_of (map (fun l => clean (cl_text l)) g) = notes.
Proof.
  intros tag g notes T H. unfold group_says in H. remember (map cl_text g) as l eqn:E. revert g E. induction H as [|x n l notes Hx H IH]; intros [|y g] E; try discriminate; [reflexivity|].
  injection E as -> E. cbn [map]. rewrite (IH g E), (line_note tag _ n T Hx). reflexivity.
Qed.
Lemma table_notes_nonempty : forall l c, In c (table_notes (map note_of l)) -> c <> "".
Proof.
  induction l as [|x l IH]; intros c I; [contradiction|]. cbn [map table_notes flat_map] in I. apply in_app_or in I. destruct I as [I|I]; [|apply IH; exact I].
  unfold note_of in I. destruct (match_index x); [contradiction|]. destruct (match_table x); [|destruct (match_constraint x); [contradiction|destruct (match_option x); contradiction]].
  destruct I as [<-|[]]. apply set_create_nonempty.
Qed.
Lemma last_default : forall A (l : list A) d d', l <> [] -> last l d = last l d'.
Proof. induction l as [|a l IH]; intros d d' N; [congruence|]. rewrite !last_cons. reflexivity. Qed.
Lemma last_member : forall A (l : list A) d, l <> [] -> In (last l d) l.
Proof. induction l as [|a l IH]; intros d N; [congruence|]. rewrite last_cons. destruct l as [|b l]; [left; reflexivity|]. right. apply IH. discriminate. Qed.
Lemma bare_table : forall t, bare (GTable t) = GTable (mkGTable "" 0 [] (g_create t) (bare_columns (g_columns t)) (map bare_text (g_constraints t)) (map bare_text (g_options t)) (g_pk t)).
Proof. reflexivity. Qed.

Lemma read_source_told : forall cfg look short file r notes name cols, good_tag (ddl_tag cfg) = true -> group_says (ddl_tag cfg) (s_group r) notes ->
  (exists fields, s_type r = Some name /\ all_of black name = true /\ s_struct r = Some fields /\ Forall2 (told cfg look) fields cols) \/ (s_struct r = None /\ cols = []) ->
  exists out, read_source cfg look short file r = Ok out
    /\ map bare out = (indexes_of notes ++ match kept cols with [] => [] | _ => [table_of name notes (kept cols)] end)%list.
Proof.
  intros cfg look short file r notes name cols T G H. unfold read_source.
  destruct (read_comments_notes file (s_group r) _ (mkGTable file (s_line r) [] "" [] [] [] []) [] (clean_members (s_group r))) as (t & out & E & H1 & H2 & H3 & H4 & H5 & H6).
  rewrite (group_notes _ _ _ T G) in *. cbn [g_create g_columns g_pk g_constraints g_options app map] in *. rewrite E. cbn [bind].
  assert (forall c, In c (table_notes notes) -> c <> "") as N.
  { intros c. rewrite <- (group_notes _ _ _ T G). apply table_notes_nonempty. }
  destruct H as [(fields & Ht & Hb & Hs & F)|[Hs ->]].
  - rewrite Ht, Hs.
    set (u := if String.eqb (g_create t) "" then _ else t).
    assert (g_create u = last (table_notes notes) ("CREATE TABLE " ++ name) /\ g_columns u = [] /\ g_pk u = [] /\ g_constraints u = g_constraints t /\ g_options u = g_options t) as (U1 & U2 & U3 & U4 & U5).
    { subst u. rewrite H1. destruct (table_notes notes) as [|c cs] eqn:En.
      - cbn [last]. change (String.eqb "" "") with true. cbv iota. cbn [set_table add_comment g_create g_columns g_pk g_constraints g_options].
        rewrite (set_create_told "TABLE" name ("CREATE TABLE " ++ name)); [|left; reflexivity|apply creates_short; right; exact Hb]. repeat split; assumption.
      - assert (last (c :: cs) "" <> "") as X by (apply N; apply last_member; discriminate).
        apply String.eqb_neq in X. rewrite X. rewrite H1. split; [apply last_default; discriminate|]. repeat split; assumption. }
    destruct (read_fields_told cfg look name fields cols F u) as (t' & Et & C & K). rewrite Et. cbn [bind].
    apply read_fields_keeps in Et. destruct Et as (_ & _ & E3 & E4 & E5). rewrite U2 in C. rewrite U3 in K. cbn [bare_columns map app] in C, K.
    eexists. split; [reflexivity|]. rewrite map_app, H6. f_equal.
    set (w := if String.eqb (g_create t') "" then _ else _).
    assert (g_create w = g_create t' /\ g_columns w = g_columns t' /\ g_pk w = g_pk t' /\ g_constraints w = g_constraints t' /\ g_options w = g_options t') as (W1 & W2 & W3 & W4 & W5).
    { subst w. destruct (String.eqb (g_create t') ""); [repeat split; reflexivity|]. destruct (g_columns t') eqn:Ec; cbn [add_comment g_create g_columns g_pk g_constraints g_options]; rewrite ?Ec; repeat split; reflexivity. }
    destruct (kept cols) as [|k ks] eqn:Ek.
    + cbn [told_columns map] in C. rewrite W2. destruct (g_columns t'); [reflexivity|discriminate].
    + rewrite W2. destruct (g_columns t') as [|g gs] eqn:Ec; [discriminate|]. cbn [map]. rewrite bare_table. unfold table_of.
      rewrite W1, W2, W3, W4, W5, E3, E4, E5, U1, U4, U5, H4, H5, !bare_text_mk, K. fold (bare_columns (g :: gs)). rewrite C. reflexivity.
  - rewrite Hs. cbn [bind]. set (u := match s_type r with Some _ => _ | None => t end).
    assert (g_columns u = []) as U by (subst u; destruct (s_type r); [destruct (String.eqb _ _)|]; cbn [set_table add_comment g_columns]; assumption).
    eexists. split; [reflexivity|]. rewrite map_app, H6. f_equal.
    set (w := if String.eqb (g_create u) "" then _ else _).
    assert (g_columns w = []) as W by (subst w; destruct (String.eqb (g_create u) ""); [exact U|rewrite U; exact U]). rewrite W. reflexivity.
Qed.

(** * Files *)

Lemma find_tagged : forall tag g notes, good_tag tag = true -> group_says tag g notes ->
  match find (fun l => match_tag tag (cl_text l)) g with Some _ => annotated notes = true | None => annotated notes = false end.
Proof.
  intros tag g notes T H. unfold group_says in H. remember (map cl_text g) as l eqn:E. revert g E. induction H as [|x n l notes Hx H IH]; intros [|y g] E; try discriminate; [reflexivity|].
  injection E as -> E. cbn [find]. rewrite (line_tagged tag _ n T Hx). unfold annotated in *. cbn [existsb]. specialize (IH g E). destruct n; try reflexivity. exact IH.
Qed.
Lemma group_told : forall cfg look short file types g notes name cols, good_tag (ddl_tag cfg) = true -> group_says (ddl_tag cfg) g notes ->
  (exists fields, last_type types = Some name /\ all_of black name = true /\ last_struct types = Some fields /\ Forall2 (told cfg look) fields cols) \/ (last_struct types = None /\ cols = []) ->
  exists outs, Forall2 (fun r o => read_source cfg look short file r = Ok o) (sources_of_group (ddl_tag cfg) types g) outs
    /\ map bare (List.concat outs) = told_group name (kept cols) notes.
Proof.
  intros cfg look short file types g notes name cols T G H. unfold sources_of_group, told_group. pose proof (find_tagged _ g notes T G) as A.
  destruct (find _ g) as [l|]; rewrite A.
  - destruct (read_source_told cfg look short file (mkSource (cl_line l) (last_type types) (last_struct types) g) notes name cols T G H) as (out & E & B).
    exists [out]. split; [constructor; [exact E|constructor]|]. cbn [List.concat]. rewrite app_nil_r. exact B.
  - exists []. split; [constructor|reflexivity].
Qed.
Lemma Forall2_flat : forall (A B C D : Type) (P : C -> D -> Prop) (f : A -> list C) (l : list A) (spec : list B) (g : B -> list gstmt) (q : A -> B -> Prop) (h : D -> list gstmt),
  Forall2 q l spec -> (forall a b, q a b -> exists ds, Forall2 P (f a) ds /\ List.concat (map h ds) = g b) ->
  exists ds, Forall2 P (flat_map f l) ds /\ List.concat (map h ds) = flat_map g spec.
Proof.
  intros A B C D P f l spec g q h F H. induction F as [|a b l spec Hab F IH]; [exists []; split; [constructor|reflexivity]|].
  destruct (H a b Hab) as (d1 & F1 & E1). destruct IH as (d2 & F2 & E2). exists (d1 ++ d2)%list. cbn [flat_map]. split; [apply Forall2_app; assumption|].
  rewrite map_app, concat_app, E1, E2. reflexivity.
Qed.
Lemma concat_bare : forall outs, map bare (List.concat outs) = List.concat (map (map bare) outs).
Proof. intro outs. apply concat_map. Qed.
Lemma node_told : forall cfg look short file n l, good_tag (ddl_tag cfg) = true -> node_says cfg look n l ->
  exists outs, Forall2 (fun r o => read_source cfg look short file r = Ok o) (sources_of_node (ddl_tag cfg) n) outs
    /\ List.concat (map (map bare) outs) = l.
Proof.
  intros cfg look short file n l T H. unfold sources_of_node. destruct H as [name fields cols notes Hn Hne Hb Hf Hg|notes Hn Hg].
  - apply (Forall2_flat _ _ _ _ _ _ _ notes _ (group_says (ddl_tag cfg))); [exact Hg|]. intros g ns G.
    destruct (group_told cfg look short file (n_types n) g ns name cols T G) as (outs & F & E); [|exists outs; split; [exact F|rewrite <- concat_bare; exact E]].
    left. exists fields. rewrite Hn. repeat split; [exact Hb|exact Hf].
  - apply (Forall2_flat _ _ _ _ _ _ _ notes _ (group_says (ddl_tag cfg))); [exact Hg|]. intros g ns G.
    destruct (group_told cfg look short file (n_types n) g ns "" [] T G) as (outs & F & E); [|exists outs; split; [exact F|rewrite <- concat_bare; exact E]].
    right. destruct Hn as [->|(name & ->)]; split; reflexivity.
Qed.
Lemma concat_flat_map : forall A (l : list (list A)), List.concat l = flat_map (fun x => x) l.
Proof. induction l as [|x l IH]; [reflexivity|]. cbn. rewrite IH. reflexivity. Qed.
Lemma sources_told : forall cfg look short file nodes l, good_tag (ddl_tag cfg) = true -> file_says cfg look nodes l ->
  exists out, read_sources cfg look short file (extract_sources (ddl_tag cfg) nodes) = Ok out /\ map bare out = l.
Proof.
  intros cfg look short file nodes l T (ls & F & ->). rewrite concat_flat_map.
  destruct (Forall2_flat _ _ _ _ (fun r o => read_source cfg look short file r = Ok o) (sources_of_node (ddl_tag cfg)) nodes ls (fun x => x) (node_says cfg look) (map bare) F) as (outs & F' & E).
  { intros n l Hn. apply node_told; assumption. }
  exists (List.concat outs). split; [|rewrite concat_bare; exact E]. apply read_sources_Forall2. exists outs. split; [exact F'|reflexivity].
Qed.
