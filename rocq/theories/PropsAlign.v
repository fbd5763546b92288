(** Properties of the layout of generated CREATE TABLE statements: C78. *)
From Coq Require Import Lia.
From Verif Require Import GoStr Token Generate.
Local Open Scope string_scope.

(** * SPECIFICATION: texts of characters *)

(** How many bytes follow the first byte of a character in UTF-8; [None]: no character starts with this byte. *)
Definition followers (c : ascii) : option nat :=
  let n := N_of_ascii c in
  if (n <? 128)%N then Some 0
  else if (n <? 194)%N then None
  else if (n <? 224)%N then Some 1
  else if (n <? 240)%N then Some 2
  else if (n <? 245)%N then Some 3 else None.
Definition follower (c : ascii) : bool := (128 <=? N_of_ascii c)%N && (N_of_ascii c <? 192)%N.
(** One character *)
Definition character (s : string) : Prop :=
  match s with
  | EmptyString => False
  | String c r => followers c = Some (String.length r) /\ forall x, In x (list_ascii_of_string r) -> follower x = true
  end.
(** A text of [n] characters *)
Inductive characters : nat -> string -> Prop :=
| no_character : characters 0 ""
| one_more : forall n c s, character c -> characters n s -> characters (S n) (c ++ s).

(** The lines of the columns, given what stands in front of each type *)
Fixpoint laid_out (indent : string) (l : list (gcolumn * string)) (tail_comma : bool) : string :=
  match l with
  | [] => ""
  | (c, front) :: r =>
      print_comments indent (gc_comments c) ++ indent ++ front ++ gc_type c
      ++ (match r with [] => if tail_comma then "," else "" | _ => "," end) ++ nl ++ laid_out indent r tail_comma
  end.
(** The name in quotation marks, and at least one blank *)
Definition front_of (d : printer) (c : gcolumn) (front : string) : Prop :=
  exists k, front = quotation d ++ gc_name c ++ quotation d ++ blanks (S k).

(** * The proof *)
Lemma continues_follower : forall c, continues c = follower c. Proof. reflexivity. Qed.
Lemma starts : forall c n, followers c = Some n -> continues c = false.
Proof.
  intros c n. unfold followers, continues. cbv zeta. generalize (N_of_ascii c). intros k H.
  destruct (N.ltb_spec k 128) as [A|A].
  - replace (128 <=? k)%N with false; [reflexivity|]. symmetry. apply N.leb_gt. exact A.
  - destruct (N.ltb_spec k 194) as [B|B]; [discriminate H|]. replace (k <? 192)%N with false; [apply andb_false_r|].
    symmetry. apply N.ltb_ge. lia.
Qed.
Lemma runes_app : forall a b, rune_count (a ++ b) = rune_count a + rune_count b.
Proof. induction a as [|c a IH]; intro b; cbn [append rune_count]; [reflexivity|]. rewrite IH. lia. Qed.
Lemma runes_followers : forall s, (forall x, In x (list_ascii_of_string s) -> follower x = true) -> rune_count s = 0.
Proof.
  induction s as [|c s IH]; intro H; cbn [rune_count]; [reflexivity|]. cbn [list_ascii_of_string] in H.
  rewrite continues_follower, (H c (or_introl eq_refl)). apply IH. intros x I. apply H. right. exact I.
Qed.
Lemma runes_characters : forall n s, characters n s -> rune_count s = n.
Proof.
  induction 1 as [|n c s H C IH]; [reflexivity|]. rewrite runes_app, IH. destruct c as [|a r]; [destruct H|]. destruct H as [H1 H2].
  cbn [rune_count]. rewrite (starts a _ H1), (runes_followers r H2). reflexivity.
Qed.
Lemma characters_app : forall n a m b, characters n a -> characters m b -> characters (n + m) (a ++ b).
Proof.
  induction 1 as [|n c s H C IH]; intro B; cbn [append Nat.add]; [exact B|].
  replace ((c ++ s) ++ b) with (c ++ (s ++ b)).
  - constructor; [exact H|apply IH, B].
  - clear. induction c as [|x c IH]; cbn [append]; [reflexivity|]. rewrite IH. reflexivity.
Qed.
Lemma characters_one : forall c, (N_of_ascii c <? 128)%N = true -> characters 1 (String c "").
Proof.
  intros c H. change (String c "") with (String c "" ++ ""). constructor; [|constructor]. split; [unfold followers; rewrite H; reflexivity|intros x []].
Qed.
Lemma characters_blanks : forall k, characters k (blanks k).
Proof. induction k as [|k IH]; cbn [blanks]; [constructor|]. apply (characters_app 1 (String " " "") k); [apply characters_one; reflexivity|exact IH]. Qed.
Lemma characters_quotation : forall d, characters 1 (quotation d).
Proof. intros []; apply characters_one; reflexivity. Qed.
Lemma few_characters : forall n s, characters n s -> n <= String.length s.
Proof.
  induction 1 as [|n c s H C IH]; [apply le_n|]. destruct c as [|x r]; [destruct H|]. cbn [append String.length].
  assert (E : String.length (r ++ s) = String.length r + String.length s).
  { clear. induction r as [|y r IH]; cbn [append String.length]; [reflexivity|]. rewrite IH. reflexivity. }
  rewrite E. lia.
Qed.
Lemma widest : forall l m c, In c l \/ String.length (gc_name c) <= m ->
  String.length (gc_name c) <= fold_left (fun m c => if Nat.ltb m (String.length (gc_name c)) then String.length (gc_name c) else m) l m.
Proof.
  induction l as [|x l IH]; intros m c H; cbn [fold_left]; [destruct H as [[]|H]; exact H|]. apply IH.
  destruct (Nat.ltb_spec m (String.length (gc_name x))) as [L|L]; destruct H as [[H|H]|H]; try (left; exact H); right; subst; lia.
Qed.
Lemma app_assoc_s : forall a b c : string, (a ++ b) ++ c = a ++ b ++ c.
Proof. induction a as [|x a IH]; intros b c; cbn [append]; [reflexivity|]. rewrite IH. reflexivity. Qed.
Lemma blanks_one : forall k, blanks k ++ " " = blanks (S k).
Proof. induction k as [|k IH]; [reflexivity|]. cbn [blanks append]. rewrite IH. reflexivity. Qed.

(** * C78: the types of the columns stand below each other *)

(** Every column gets its line; what stands in front of the types is equally wide, in characters, in all lines. *)
Theorem C78_types_are_aligned : forall d indent l tail_comma,
  (forall c, In c l -> exists n, characters n (gc_name c)) ->
  exists width fronts, List.length fronts = List.length l /\
    print_columns d indent (name_width l) l tail_comma = laid_out indent (combine l fronts) tail_comma /\
    (forall c front, In (c, front) (combine l fronts) -> front_of d c front /\ characters width front).
Proof.
  intros d indent l tail_comma V.
  assert (W : forall c, In c l -> 2 + String.length (gc_name c) <= name_width l).
  { intros c I. unfold name_width. pose proof (widest l 0 c (or_introl I)). lia. }
  revert V W. generalize (name_width l). intros w V W. exists (S w). revert V W. induction l as [|c l IH]; intros V W.
  - exists []. split; [reflexivity|]. split; [reflexivity|]. intros c front [].
  - destruct IH as [fronts [L [E H]]]; [intros x I; apply V; right; exact I|intros x I; apply W; right; exact I|].
    destruct (V c (or_introl eq_refl)) as [n Cn]. pose proof (W c (or_introl eq_refl)) as Wc. pose proof (few_characters n _ Cn) as Le.
    set (q := quotation d ++ gc_name c ++ quotation d).
    assert (Q : characters (1 + (n + 1)) q).
    { apply characters_app; [apply characters_quotation|]. apply characters_app; [exact Cn|apply characters_quotation]. }
    exists ((pad w q ++ " ") :: fronts). split; [cbn [List.length]; rewrite L; reflexivity|]. split.
    + cbn [print_columns combine laid_out]. rewrite E. fold q. rewrite !app_assoc_s.
      f_equal. f_equal. f_equal. f_equal. f_equal. destruct l as [|y l]; destruct fronts as [|f fronts]; try discriminate L; cbn [combine];
        [destruct tail_comma; reflexivity|]. rewrite ?app_assoc_s. reflexivity.
    + intros x front [I|I]; [|apply H; exact I]. injection I as I1 I2. subst x front. unfold pad. rewrite (runes_characters _ _ Q). split.
      * exists (w - (1 + (n + 1))). rewrite app_assoc_s, blanks_one. unfold q. rewrite !app_assoc_s. reflexivity.
      * rewrite app_assoc_s, blanks_one. replace (S w) with ((1 + (n + 1)) + S (w - (1 + (n + 1)))) by lia.
        apply characters_app; [exact Q|apply characters_blanks].
Qed.
Print Assumptions C78_types_are_aligned.
Definition e_acute : string := String (ascii_of_N 195) (String (ascii_of_N 169) "").
Example C78_example :
  let l := [mkGColumn [] "id" "INTEGER"; mkGColumn ["words"] ("caf" ++ e_acute) "TEXT"] in
  (forall c, In c l -> exists n, characters n (gc_name c)) /\
  print_columns PgPrinter "  " (name_width l) l false =
    "  " ++ dquote ++ "id" ++ dquote ++ "    INTEGER," ++ nl ++ "  -- words" ++ nl ++
    "  " ++ dquote ++ "caf" ++ e_acute ++ dquote ++ "  TEXT" ++ nl.
Proof.
  split; [|reflexivity]. intros c [H|[H|[]]]; subst; cbn [gc_name].
  - exists 2. apply (characters_app 1 "i" 1 "d"); apply characters_one; reflexivity.
  - exists 4. apply (characters_app 1 "c" 3); [apply characters_one; reflexivity|]. apply (characters_app 1 "a" 2); [apply characters_one; reflexivity|].
    apply (characters_app 1 "f" 1); [apply characters_one; reflexivity|]. change e_acute with (e_acute ++ ""). constructor; [|constructor].
    split; [reflexivity|]. intros x [I|[]]. subst. reflexivity.
Qed.
