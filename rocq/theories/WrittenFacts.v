(** Reading written schemas (for C52, C53). *)
From Coq Require Import Permutation Lia.
From Verif Require Import GoStr Token Lexer LexerFacts LexSpec LexLayout LexKeyword LexPanic Ast Parser Printable PrintLex PrintToks PrintParse PrintColumn PrintStmt PrintDdl Written.
Local Open Scope list_scope.

(** * Tokens *)

Definition clause_toks (d : dialect) (k : clause) : list token :=
  match k with
  | KNotNull => [W d "NOT"; W d "NULL"]
  | KNull => [W d "NULL"]
  | KDefault v => default_toks d (Some (Some v))
  | KNotVisible => [W d "NOT"; W d "VISIBLE"]
  | KAs a => as_toks d a
  | KCharset i => [W d "CHARACTER"; W d "SET"] ++ [text_tok d (id_raw i)]
  | KCollate i => [W d "COLLATE"] ++ [text_tok d (id_raw i)]
  | KAutoIncrement => [W d "AUTO_INCREMENT"]
  | KOnAction s => onaction_toks d s
  end.
Definition action_toks (d : dialect) (s : string) : list token := if String.eqb s "" then [] else map (W d) (split " " s).
Definition inline_toks (d : dialect) (k : inline) : list token :=
  match k with
  | KPrimary => [W d "PRIMARY"; W d "KEY"]
  | KUnique => [W d "UNIQUE"]
  | KReferences ref cols s => W d "REFERENCES" :: tI (id_raw ref) :: cols_toks d cols ++ action_toks d s
  | KCheck l => W d "CHECK" :: piece_toks d l
  end.
Definition wlate_toks (d : dialect) (l : late) : list token :=
  match l with LNone => [] | LComment s => [W d "COMMENT"; text_tok d s] | LOptions l => W d "OPTIONS" :: piece_toks d l end.
Definition type_toks (d : dialect) (c : wcolumn) : list token :=
  dt_toks d (wc_type c) ++ flat_map (clause_toks d) (wc_clauses c) ++ flat_map (inline_toks d) (wc_keys c) ++ wlate_toks d (wc_late c).

Lemma clause_TT : forall d k, clause_ok d k = true -> TT d (clause_string d k) (clause_toks d k).
Proof.
  intros d k H. destruct k; cbn [clause_ok clause_string clause_toks] in *.
  - lit_TT.
  - lit_TT.
  - cbn [default_string default_toks]. change (W d "DEFAULT" :: piece_toks d v) with ([W d "DEFAULT"] ++ piece_toks d v).
    apply FF_TT_app; [lit_FF|]. apply value_TT, H.
  - destruct d; try discriminate H. lit_TT.
  - destruct d; try discriminate H. apply as_TT, H.
  - destruct d; try discriminate H. apply andb_true_iff in H. destruct H as [_ H].
    apply FF_TT_app; [eapply lit_FF; reflexivity|apply text_TT, H].
  - destruct d; try discriminate H. apply andb_true_iff in H. destruct H as [_ H].
    apply FF_TT_app; [eapply lit_FF; reflexivity|apply text_TT, H].
  - destruct d; try discriminate H. lit_TT.
  - destruct d; try discriminate H. apply onaction_TT, H.
Qed.
Lemma action_in : forall s, existsb (String.eqb s) actions = true -> In s actions.
Proof. intros s H. apply existsb_exists in H. destruct H as (x & I & E). apply String.eqb_eq in E. subst x. exact I. Qed.
Lemma action_FF : forall d s, String.eqb s "" || match d with Sp => false | _ => existsb (String.eqb s) actions end = true ->
  SEG d (if String.eqb s "" then "" else " " ++ s) (action_toks d s).
Proof.
  intros d s H. unfold action_toks. destruct (String.eqb s "") eqn:E; [apply SEG_nil|]. cbn [orb] in H.
  assert (I : In s actions) by (apply action_in; destruct d; try discriminate H; exact H). apply SEG_blank.
  cbn [In actions] in I. destruct I as [<-|[<-|[<-|[<-|[]]]]]; destruct d; try discriminate H; (eapply lit_TT; reflexivity).
Qed.
Lemma inline_TT : forall d k, inline_ok d k = true -> TT d (inline_string d k) (inline_toks d k).
Proof.
  intros d k H. destruct k; cbn [inline_string inline_toks].
  - lit_TT.
  - lit_TT.
  - cbn [inline_ok] in H. apply andb_true_iff in H. destruct H as [H K3]. apply andb_true_iff in H. destruct H as [K1 K2].
    change (W d "REFERENCES" :: tI (id_raw ref) :: cols_toks d cols ++ action_toks d action) with ([W d "REFERENCES"] ++ [tI (id_raw ref)] ++ cols_toks d cols ++ action_toks d action).
    apply FF_TT_app; [lit_FF|]. apply TT_SEG; [apply name_TT, K1|]. apply SEG_blank.
    apply TT_SEG; [apply FF_TT, cols_FF, K2|apply action_FF, K3].
  - change (W d "CHECK" :: piece_toks d l) with ([W d "CHECK"] ++ piece_toks d l). apply FF_TT_app; [lit_FF|apply group_TT, H].
Qed.
Lemma keys_all : forall d l ks, keys_ok d ks l = true -> forall k, In k ks -> inline_ok d k = true.
Proof.
  intros d l ks. induction ks as [|k ks IH]; intros H x Hx; [destruct Hx|]. cbn [keys_ok] in H. apply andb_true_iff in H. destruct H as [H H2].
  apply andb_true_iff in H. destruct H as [H1 _]. destruct Hx as [<-|Hx]; [exact H1|apply IH; assumption].
Qed.
Lemma spaced_SEG : forall d (A : Type) (f : A -> string) (g : A -> list token) l,
  (forall x, In x l -> TT d (f x) (g x)) -> SEG d (concat_str (map (fun x => " " ++ f x)%string l)) (flat_map g l).
Proof.
  intros d A f g l. induction l as [|x l IH]; intro H; [apply SEG_nil|]. cbn [map concat_str flat_map].
  apply SEG_app; [apply SEG_blank, H; left; reflexivity|apply IH; intros y Hy; apply H; right; exact Hy].
Qed.
Lemma clauses_all : forall d keys l ks, clauses_ok d ks keys l = true -> forall k, In k ks -> clause_ok d k = true.
Proof.
  intros d keys l ks. induction ks as [|k ks IH]; intros H x Hx; [destruct Hx|]. cbn [clauses_ok] in H. apply andb_true_iff in H. destruct H as [H H2].
  apply andb_true_iff in H. destruct H as [H1 _]. destruct Hx as [<-|Hx]; [exact H1|apply IH; assumption].
Qed.
Lemma wlate_SEG : forall d l, late_ok d l = true -> SEG d (late_string d l) (wlate_toks d l).
Proof.
  intros d l H. destruct l as [|s|l]; cbn [late_string wlate_toks]; [apply SEG_nil| |].
  - destruct d; try discriminate H. cbn [late_ok] in H. apply SEG_stop; [|reflexivity].
    change ([W My "COMMENT"; text_tok My s]) with ([W My "COMMENT"] ++ [text_tok My s]).
    apply (FF_TT_app My " COMMENT "); [eapply lit_FF; reflexivity|apply text_TT, H].
  - destruct d; try discriminate H. cbn [late_ok] in H. apply SEG_stop; [|reflexivity].
    change (W Sp "OPTIONS" :: piece_toks Sp l) with ([W Sp "OPTIONS"] ++ piece_toks Sp l).
    apply (FF_TT_app Sp " OPTIONS "); [eapply lit_FF; reflexivity|apply group_TT, H].
Qed.
Lemma wcolumn_parts : forall d c, wcolumn_ok d c = true ->
  name_ok d (wc_name c) = true /\ datatype_ok d (wc_type c) = true /\ clauses_ok d (wc_clauses c) (wc_keys c) (wc_late c) = true
  /\ keys_ok d (wc_keys c) (wc_late c) = true /\ late_ok d (wc_late c) = true.
Proof.
  intros d c H. unfold wcolumn_ok in H. repeat (apply andb_true_iff in H; let K := fresh "K" in destruct H as [H K]).
  repeat split; auto.
Qed.
Lemma type_TT : forall d c, wcolumn_ok d c = true -> TT d (type_string d c) (type_toks d c).
Proof.
  intros d c H. destruct (wcolumn_parts d c H) as (_ & Ht & Hc & Hk & Hl). unfold type_string, type_toks.
  apply TT_SEG; [apply datatype_TT, Ht|]. apply SEG_app; [apply spaced_SEG; intros k Ik; apply clause_TT, (clauses_all d _ _ _ Hc), Ik|].
  apply SEG_app; [apply spaced_SEG; intros k Ik; apply inline_TT, (keys_all d _ _ Hk), Ik|apply wlate_SEG, Hl].
Qed.

(** * Constraints without name *)

Lemma nameless_TT : forall d c, nameless_ok d c = true -> TT d (constraint_string d (rename None c)) (constraint_toks d (rename None c)).
Proof.
  intros d c H. destruct c as [n cols|n cols ref refcols on|n cols|n u pre cols post|n e]; cbn [nameless_ok rename constraint_string constraint_toks name_prefix named_toks List.app] in *;
  repeat match goal with |- context [("" ++ ?x)%string] => change ("" ++ x)%string with x end.
  - assert (K : colidents_ok d cols = true) by (destruct d; try discriminate H; exact H). apply FF_TT.
    replace (match d with My => "" | _ => "" end) with "" by (destruct d; reflexivity). replace (match d with My => [] | _ => [] end) with (@nil token) by (destruct d; reflexivity).
    cbn [List.app]. change ("" ++ "PRIMARY KEY" ++ " " ++ cols_string d cols)%string with ("PRIMARY KEY" ++ " " ++ cols_string d cols)%string. change (W d "PRIMARY" :: W d "KEY" :: cols_toks d cols) with ([W d "PRIMARY"; W d "KEY"] ++ [] ++ cols_toks d cols).
    apply (TT_FF_app d "PRIMARY KEY"); [lit_TT| |apply lead1_app, lead1_byte; reflexivity]. apply (FF_FF_app d " "); [apply blank_FF|apply cols_FF, K].
  - assert (K : colidents_ok d cols && unordered cols && name_ok d ref && colidents_ok d refcols && String.eqb on "" = true) by (destruct d; try discriminate H; exact H).
    repeat (apply andb_true_iff in K; let J := fresh "J" in destruct K as [K J]). apply String.eqb_eq in J. subst on.
    replace (match d with Pg | Crdb => nonempty_prefixed " " "" | _ => "" end) with "" by (destruct d; reflexivity). rewrite app_s_nil. apply FF_TT.
    change (W d "FOREIGN" :: W d "KEY" :: cols_toks d cols ++ W d "REFERENCES" :: tI (id_raw ref) :: cols_toks d refcols)
      with ([W d "FOREIGN"; W d "KEY"] ++ [] ++ cols_toks d cols ++ [W d "REFERENCES"] ++ [tI (id_raw ref)] ++ [] ++ cols_toks d refcols).
    apply (TT_FF_app d "FOREIGN KEY"); [lit_TT| |apply lead1_app, lead1_byte; reflexivity]. apply (FF_FF_app d " "); [apply blank_FF|].
    apply FF_FF_app; [apply cols_FF; assumption|]. apply FF_FF_app; [lit_FF|].
    apply TT_FF_app; [apply name_TT; assumption| |apply lead1_app, lead1_byte; reflexivity]. apply FF_FF_app; [apply blank_FF|]. apply cols_FF. assumption.
  - destruct d; try discriminate H. apply andb_true_iff in H. destruct H as [H _]. apply FF_TT.
    change (W Pg "UNIQUE" :: cols_toks Pg cols) with ([W Pg "UNIQUE"] ++ cols_toks Pg cols). apply (FF_FF_app Pg "UNIQUE "); [eapply lit_FF; reflexivity|apply cols_FF, H].
  - discriminate H.
  - destruct e as [l|]; [|discriminate H]. destruct d; try discriminate H.
    change (W My "CHECK" :: piece_toks My l) with ([W My "CHECK"] ++ piece_toks My l). apply (FF_TT_app My "CHECK "); [eapply lit_FF; reflexivity|apply group_TT, H].
Qed.
Lemma name_plain : forall d s, starts_with_mark d s = false -> NewRawIdent d s = plain_name s.
Proof. intros d s H. apply prefix_mark, H. Qed.
Lemma mark_app : forall d s t, starts_with_mark d s = false -> starts_with_mark d t = false -> starts_with_mark d (s ++ t) = false.
Proof. intros d s t H K. destruct s as [|c s]; [exact K|exact H]. Qed.
Lemma pkey_plain : forall d tbl, starts_with_mark d (id_name tbl) = false -> pkey_name d tbl = plain_name (pkey_default d (id_name tbl)).
Proof.
  intros d tbl H. unfold pkey_name, pkey_default, ident_diff. destruct d; try reflexivity; apply name_plain, mark_app; try exact H; reflexivity.
Qed.
Lemma joined_cols : forall d cs, d = Pg \/ d = My -> unordered cs = true -> underscore_cols d cs = joined cs.
Proof.
  intros d cs D. induction cs as [|c cs IH]; intro H; [reflexivity|]. unfold unordered in *. cbn [forallb] in H. apply andb_true_iff in H. destruct H as [H1 H2].
  cbn [underscore_cols]. rewrite (IH H2). unfold joined. cbn [map concat_str]. unfold colident_diff, ident_diff. destruct (ci_order c); [discriminate H1|].
  destruct D as [->| ->]; rewrite app_s_nil, app_s_assoc; reflexivity.
Qed.
Lemma nameless_run : forall d tbl c rest, nameless_ok d c = true -> starts_with_mark d (id_name tbl) = false ->
  nb (constraint_toks d (rename None c) ++ rest) -> item_stop (curT rest) = true ->
  parseTableConstraint d tbl (constraint_toks d (rename None c) ++ rest) = Ok (rename (Some (plain_name (default_name d (id_name tbl) c))) c, rest)
  /\ isConstraint d (curT (constraint_toks d (rename None c) ++ rest)) = true
  /\ eqs (curT (constraint_toks d (rename None c) ++ rest)) TOKEN_IDENT = false.
Proof.
  intros d tbl c rest H M Hnb Hs.
  destruct (item_stop_cases rest Hs) as [st [sr [Es St]]]. subst rest.
  destruct c as [n cls|n cls ref refcols on|n cls|n u pre cls post|n e]; cbn [nameless_ok rename constraint_toks default_name named_toks List.app] in *.
  - assert (K : colidents_ok d cls = true) by (destruct d; try discriminate H; exact H).
    replace (match d with My => [] | _ => [] end) with (@nil token) in * by (destruct d; reflexivity). cbn [List.app] in *. rewrite <- (pkey_plain d tbl M).
    split; [|split; destruct d; try discriminate H; reflexivity].
    part d cls K. destruct d; try discriminate H; unfold parseTableConstraint; go; reflexivity.
  - assert (D : d = Pg \/ d = My) by (destruct d; try discriminate H; auto).
    assert (K : colidents_ok d cls && unordered cls && name_ok d ref && colidents_ok d refcols && String.eqb on "" = true) by (destruct d; try discriminate H; exact H).
    apply andb_true_iff in K. destruct K as [K K5]. apply andb_true_iff in K. destruct K as [K K4]. apply andb_true_iff in K. destruct K as [K K3].
    apply andb_true_iff in K. destruct K as [K1 K2]. apply String.eqb_eq in K5. subst on. rewrite <- app_assoc in *. cbn [List.app] in *.
    split; [|split; destruct D; subst d; reflexivity].
    assert (N : tbl_fkey_name d tbl cls = plain_name (id_name tbl ++ joined cls ++ "_fkey")%string).
    { unfold tbl_fkey_name, ident_diff. rewrite (joined_cols d cls D K2). apply name_plain, mark_app; [exact M|]. destruct cls; destruct d; reflexivity. }
    rewrite <- N. pose proof (name_new d ref K3) as Nr.
    assert (Hnb2 : nb (W d "REFERENCES" :: tI (id_raw ref) :: cols_toks d refcols ++ st :: sr)) by nbs. part d refcols K4. part d cls K1.
    assert (O : parseTableOn d (st :: sr) = Ok ("", st :: sr)) by (unfold parseTableOn; unfold curT; cbn [cur]; destruct d; destruct St as [St|St]; cbn [eqs cur]; rewrite ?St; cbn; rewrite ?St; reflexivity).
    destruct D; subst d; unfold parseTableConstraint; go; rewrite ?O, Nr; reflexivity.
  - destruct d; try discriminate H. apply andb_true_iff in H. destruct H as [K1 K2]. split; [|split; reflexivity].
    assert (N : tbl_unique_name Pg tbl cls = plain_name (id_name tbl ++ "_unique" ++ joined cls)%string).
    { unfold tbl_unique_name, ident_diff. rewrite (joined_cols Pg cls (or_introl eq_refl) K2). apply name_plain, mark_app; [exact M|reflexivity]. }
    rewrite <- N. part Pg cls K1. unfold parseTableConstraint. go. reflexivity.
  - discriminate H.
  - destruct e as [l|]; [|discriminate H]. destruct d; try discriminate H. split; [|split; reflexivity].
    destruct (group_part My l (st :: sr) H) as [t [q [E [T [R _]]]]]; [nbs|rewrite E in *].
    unfold parseTableConstraint; go. unfold ident_diff. rewrite name_plain by (apply mark_app; [exact M|reflexivity]). reflexivity.
Qed.

(** * Columns *)

(** What may come behind the clauses of a column. *)
Definition tail_toks (d : dialect) (c : wcolumn) : list token := flat_map (inline_toks d) (wc_keys c) ++ wlate_toks d (wc_late c).
Definition tail_types : list tokentype := [TOKEN_COMMA; TOKEN_CLOSE_PAREN; TOKEN_COMMENT; TOKEN_OPTIONS; TOKEN_PRIMARY; TOKEN_UNIQUE; TOKEN_REFERENCES; TOKEN_CHECK].
Lemma tail_first : forall d c rest, late_ok d (wc_late c) = true -> item_stop (curT rest) = true -> isin (curT (tail_toks d c ++ rest)) tail_types = true.
Proof.
  intros d c rest L H. destruct (item_stop_cases rest H) as [t [r [E T]]]. subst rest. unfold tail_toks.
  destruct (wc_keys c) as [|[| | |] ks]; [|destruct d; reflexivity..].
  destruct (wc_late c) as [|s|l]; cbn [flat_map wlate_toks List.app]; [|destruct d; try discriminate L; reflexivity|destruct d; try discriminate L; reflexivity].
  unfold curT. cbn [cur]. destruct T as [T|T]; rewrite T; reflexivity.
Qed.
Lemma attrs_tail : forall d c rest fuel, isin (curT rest) tail_types = true -> List.length rest < fuel -> parseAttrs_loop d fuel c rest = Ok (c, rest).
Proof.
  intros d c rest fuel H Hf. destruct fuel as [|fuel]; [lia|]. cbn [parseAttrs_loop]. apply isin_in in H. cbn [In tail_types] in H.
  destruct H as [H|[H|[H|[H|[H|[H|[H|[H|[]]]]]]]]]; rewrite <- H; destruct d; run; reflexivity.
Qed.
Lemma clause_first : forall d k r, clause_ok d k = true -> negb (isin (curT (clause_toks d k ++ r)) [TOKEN_WITH; TOKEN_PRECISION; TOKEN_OPEN_PAREN]) = true.
Proof.
  intros d k r H. destruct k; cbn [clause_ok clause_toks] in *; try (destruct d; try discriminate H; reflexivity).
  - destruct d; try discriminate H. unfold as_ok in H. apply andb_true_iff in H. destruct H as [H _]. unfold as_toks. destruct (as_value a); [reflexivity|discriminate H].
  - destruct d; try discriminate H. unfold onaction_ok in H. unfold onaction_toks. destruct (split " " s) as [|o [|u [|v [|]]]]; try discriminate H.
    repeat (apply andb_true_iff in H; destruct H as [H _]). apply String.eqb_eq in H. subst o. reflexivity.
Qed.
Lemma clauses_first : forall d c rest, wcolumn_ok d c = true -> item_stop (curT rest) = true ->
  negb (isin (curT (flat_map (clause_toks d) (wc_clauses c) ++ tail_toks d c ++ rest)) [TOKEN_WITH; TOKEN_PRECISION; TOKEN_OPEN_PAREN]) = true.
Proof.
  intros d c rest H Hs. destruct (wcolumn_parts d c H) as (_ & _ & Hc & _ & Hl). destruct (wc_clauses c) as [|k ks].
  - cbn [flat_map List.app]. pose proof (tail_first d c rest Hl Hs) as T. apply isin_in in T. cbn [In tail_types] in T.
    destruct T as [T|[T|[T|[T|[T|[T|[T|[T|[]]]]]]]]]; rewrite <- T; reflexivity.
  - cbn [flat_map]. rewrite <- app_assoc. apply clause_first. cbn [clauses_ok] in Hc. apply andb_true_iff in Hc. destruct Hc as [Hc _]. apply andb_true_iff in Hc. apply Hc.
Qed.
Lemma clause_reads : forall d c k r keys l rest, clause_ok d k = true -> followed d k r keys l = true -> (forall x, In x r -> clause_ok d x = true) -> late_ok d l = true ->
  item_stop (curT rest) = true ->
  reads d c (clause_toks d k) (on c k) (flat_map (clause_toks d) r ++ (flat_map (inline_toks d) keys ++ wlate_toks d l) ++ rest).
Proof.
  intros d c k r keys l rest H F R L Hs. destruct (item_stop_cases rest Hs) as [t [sr [E T]]]. destruct c as [n ty df nn nv asv cs co ai oa cm op].
  destruct k; cbn [clause_ok clause_toks on followed] in *.
  - apply (reads_notnull d (mkCol n ty df nn nv asv cs co ai oa cm op)).
  - apply (reads_null d (mkCol n ty df nn nv asv cs co ai oa cm op)).
  - apply (reads_default d (mkCol n ty df nn nv asv cs co ai oa cm op)); [exact H|]. destruct r as [|k r].
    + destruct keys as [|[| | |] keys]; [|destruct d; reflexivity..]. destruct l; [|destruct d; try discriminate L; reflexivity|discriminate F].
      cbn [flat_map wlate_toks List.app]. subst rest. unfold curT. cbn [cur]. unfold default_stop. destruct T as [T|T]; rewrite T; reflexivity.
    + specialize (R k (or_introl eq_refl)). destruct k; try discriminate F; cbn [flat_map]; rewrite <- app_assoc.
      * destruct d; reflexivity.
      * destruct d; reflexivity.
      * cbn [clause_ok] in R. destruct d; try discriminate R. cbn [clause_toks]. unfold onaction_ok in R. unfold onaction_toks. destruct (split " " s) as [|o [|u [|w [|]]]]; try discriminate R.
        repeat (apply andb_true_iff in R; destruct R as [R _]). apply String.eqb_eq in R. subst o. reflexivity.
  - destruct d; try discriminate H. apply (reads_notvisible (mkCol n ty df nn nv asv cs co ai oa cm op)).
  - destruct d; try discriminate H. destruct r; [|discriminate F]. destruct keys; [|discriminate F]. destruct l; try discriminate F.
    cbn [flat_map wlate_toks List.app]. apply (reads_as (mkCol n ty df nn nv asv cs co ai oa cm op)); assumption.
  - destruct d; try discriminate H. apply andb_true_iff in H. destruct H as [H _]. apply (reads_charset (mkCol n ty df nn nv asv cs co ai oa cm op)), H.
  - destruct d; try discriminate H. apply andb_true_iff in H. destruct H as [H _]. apply (reads_collate (mkCol n ty df nn nv asv cs co ai oa cm op)), H.
  - destruct d; try discriminate H. apply (reads_autoinc (mkCol n ty df nn nv asv cs co ai oa cm op)).
  - destruct d; try discriminate H. apply (reads_onaction (mkCol n ty df nn nv asv cs co ai oa cm op)), H.
Qed.
Lemma clauses_read : forall d ks c keys l rest, clauses_ok d ks keys l = true -> late_ok d l = true -> item_stop (curT rest) = true ->
  reads d c (flat_map (clause_toks d) ks) (fold_left on ks c) ((flat_map (inline_toks d) keys ++ wlate_toks d l) ++ rest).
Proof.
  intros d ks. induction ks as [|k ks IH]; intros c keys l rest H L Hs; [apply reads_nil|]. pose proof (clauses_all d keys l (k :: ks) H) as A.
  cbn [clauses_ok] in H. apply andb_true_iff in H. destruct H as [H H2]. apply andb_true_iff in H. destruct H as [H1 F].
  cbn [flat_map fold_left]. eapply reads_app; [|apply IH; assumption]. apply clause_reads; auto. intros x Hx. apply A. right. exact Hx.
Qed.

(** * Collecting constraints *)

Definition front (cs : list constraint) : list constraint := filter is_pkey cs ++ filter (fun c => negb (is_pkey c)) cs.
Definition few_keys (cs : list constraint) : Prop :=
  List.length (filter is_pkey cs) <= 1 /\ forall a c b, cs = a ++ c :: b -> is_pkey c = true -> List.length a < 12.
Definition good_list (d : dialect) (cs : list constraint) : Prop :=
  (forall c, In c cs -> named c) /\ distinct (constraint_names cs) = true
  /\ match d with Crdb | My => few_keys cs | _ => True end.
Definition sorter (d : dialect) (n : nat) (srt : list constraint -> list constraint) : Prop :=
  match d with Crdb | My => keeps_primary_first n srt | _ => True end.
Lemma distinct_NoDup : forall l, distinct l = true <-> NoDup l.
Proof.
  intro l. induction l as [|x l IH]; [split; [constructor|reflexivity]|]. cbn [distinct]. rewrite andb_true_iff, negb_true_iff, IH. split.
  - intros [A B]. constructor; [|exact B]. intro I. assert (E : existsb (String.eqb x) l = true) by (apply existsb_exists; exists x; split; [exact I|apply String.eqb_refl]). congruence.
  - intro H. inversion H as [|? ? N D]; subst. split; [|exact D]. destruct (existsb (String.eqb x) l) eqn:E; [|reflexivity]. apply existsb_exists in E. destruct E as (y & I & E).
    apply String.eqb_eq in E. subst y. contradiction.
Qed.
Lemma distinct_permuted : forall a b, Permutation a b -> distinct a = true -> distinct b = true.
Proof. intros a b P H. apply distinct_NoDup. apply distinct_NoDup in H. eapply Permutation_NoDup; eassumption. Qed.
Lemma front_permuted : forall cs, Permutation (front cs) cs.
Proof.
  intro cs. induction cs as [|c cs IH]; [constructor|]. unfold front in *. cbn [filter]. destruct (is_pkey c); cbn [negb List.app]; [constructor; exact IH|].
  apply Permutation_sym, Permutation_cons_app, Permutation_sym, IH.
Qed.
Lemma front_app_front : forall a b, front (a ++ front b) = front (a ++ b).
Proof.
  intros a b. unfold front. rewrite !filter_app.
  assert (F1 : forall l, filter is_pkey (filter is_pkey l) = filter is_pkey l) by (intro l; induction l as [|x l IH]; [reflexivity|]; cbn [filter]; destruct (is_pkey x) eqn:E; [cbn [filter]; rewrite E, IH; reflexivity|exact IH]).
  assert (F2 : forall l, filter is_pkey (filter (fun c => negb (is_pkey c)) l) = []) by (intro l; induction l as [|x l IH]; [reflexivity|]; cbn [filter]; destruct (is_pkey x) eqn:E; cbn [negb]; [exact IH|cbn [filter]; rewrite E; exact IH]).
  assert (F3 : forall l, filter (fun c => negb (is_pkey c)) (filter is_pkey l) = []) by (intro l; induction l as [|x l IH]; [reflexivity|]; cbn [filter]; destruct (is_pkey x) eqn:E; [cbn [filter]; rewrite E; exact IH|exact IH]).
  assert (F4 : forall l, filter (fun c => negb (is_pkey c)) (filter (fun c => negb (is_pkey c)) l) = filter (fun c => negb (is_pkey c)) l) by (intro l; induction l as [|x l IH]; [reflexivity|]; cbn [filter]; destruct (is_pkey x) eqn:E; cbn [negb]; [exact IH|cbn [filter]; rewrite E; cbn [negb]; rewrite IH; reflexivity]).
  rewrite F1, F2, F3, F4, app_nil_r. reflexivity.
Qed.
Lemma distinct_suffix : forall l r, distinct (l ++ r) = true -> distinct r = true.
Proof. intro l. induction l as [|x l IH]; intros r H; [exact H|]. cbn [List.app distinct] in H. apply andb_true_iff in H. apply IH, H. Qed.
Lemma few_prefix : forall l r, few_keys (l ++ r) -> few_keys l.
Proof.
  intros l r [A B]. rewrite filter_app, app_length in A. split; [lia|]. intros a c b -> K. apply (B a c (b ++ r)); [rewrite <- app_assoc; reflexivity|exact K].
Qed.
Lemma few_suffix : forall l r, few_keys (l ++ r) -> few_keys r.
Proof.
  intros l r [A B]. rewrite filter_app, app_length in A. split; [lia|]. intros a c b -> K. assert (L : List.length (l ++ a) < 12) by (apply (B (l ++ a) c b); [rewrite <- app_assoc; reflexivity|exact K]).
  rewrite app_length in L. lia.
Qed.
Lemma few_none : forall l, filter is_pkey l = [] -> filter (fun c => negb (is_pkey c)) l = l.
Proof. intro l. induction l as [|x l IH]; intro H; [reflexivity|]. cbn [filter] in *. destruct (is_pkey x); [discriminate H|]. cbn [negb]. rewrite IH by exact H. reflexivity. Qed.
Lemma few_front : forall l r, few_keys (l ++ r) -> few_keys (l ++ front r).
Proof.
  intros l r [A B]. split.
  - rewrite filter_app, app_length in *. replace (List.length (filter is_pkey (front r))) with (List.length (filter is_pkey r)); [exact A|].
    apply Permutation_length. generalize (front_permuted r). generalize (front r). intros f P. clear - P. apply Permutation_sym in P. induction P; cbn [filter].
    + constructor.
    + destruct (is_pkey x); [constructor; exact IHP|exact IHP].
    + destruct (is_pkey x), (is_pkey y); try apply Permutation_refl. apply perm_swap.
    + eapply perm_trans; eassumption.
  - intros a c b E K. destruct (Nat.lt_ge_cases (List.length a) (List.length l)) as [La|La].
    + assert (exists b', l = a ++ c :: b') as [b' ->].
      { clear - E La. revert a E La. induction l as [|x l IH]; intros a E La; [cbn in La; lia|]. destruct a as [|y a]; cbn [List.app] in E.
        - injection E as -> E. exists l. reflexivity.
        - injection E as -> E. destruct (IH a E) as [b' ->]; [cbn in La; lia|]. exists b'. reflexivity. }
      apply (B a c (b' ++ r)); [rewrite <- app_assoc; reflexivity|exact K].
    + assert (exists a', a = l ++ a' /\ front r = a' ++ c :: b) as (a' & -> & F).
      { clear - E La. revert a E La. induction l as [|x l IH]; intros a E La; [exists a; split; [reflexivity|exact E]|]. destruct a as [|y a]; [cbn in La; lia|]. cbn [List.app] in E.
        injection E as -> E. destruct (IH a E) as (a' & -> & F); [cbn in La; lia|]. exists a'. split; [reflexivity|exact F]. }
      rewrite filter_app, app_length in A.
      assert (In c (filter is_pkey r)) as Ic.
      { apply filter_In. split; [|exact K]. apply (Permutation_in _ (front_permuted r)). rewrite F. apply in_or_app. right. left. reflexivity. }
      assert (a' = []) as ->.
      { unfold front in F. destruct (filter is_pkey r) as [|p [|q t]] eqn:Ef; [destruct Ic| |cbn in A; lia]. destruct Ic as [->|[]]. destruct a' as [|z a']; [reflexivity|]. exfalso.
        cbn [List.app] in F. injection F as _ F. assert (In c (filter (fun c => negb (is_pkey c)) r)) as Ic by (rewrite F; apply in_or_app; right; left; reflexivity).
        apply filter_In in Ic. destruct Ic as [_ Ic]. rewrite K in Ic. discriminate Ic. }
      rewrite app_nil_r. apply filter_In in Ic. destruct Ic as [Ic _]. apply in_split in Ic. destruct Ic as (x & y & ->).
      assert (L : List.length (l ++ x) < 12) by (apply (B (l ++ x) c y); [rewrite <- app_assoc; reflexivity|exact K]). rewrite app_length in L. lia.
Qed.
Lemma good_prefix : forall d l r, good_list d (l ++ r) -> good_list d l.
Proof.
  intros d l r (N & D & P). split; [intros c Hc; apply N, in_or_app; left; exact Hc|]. unfold constraint_names in *. rewrite map_app in D.
  split; [apply (distinct_prefix _ _ D)|]. destruct d; try exact I; apply (few_prefix l r), P.
Qed.
Lemma good_suffix : forall d l r, good_list d (l ++ r) -> good_list d r.
Proof.
  intros d l r (N & D & P). split; [intros c Hc; apply N, in_or_app; right; exact Hc|]. unfold constraint_names in *. rewrite map_app in D.
  split; [apply (distinct_suffix _ _ D)|]. destruct d; try exact I; apply (few_suffix l r), P.
Qed.
Lemma keys_permuted : forall d cs, Permutation (keys_first d cs) cs.
Proof. intros d cs. destruct d; try apply Permutation_refl; apply front_permuted. Qed.
Lemma keys_length : forall d cs, List.length (keys_first d cs) = List.length cs.
Proof. intros d cs. apply Permutation_length, keys_permuted. Qed.
Lemma keys_app : forall d a b, keys_first d (a ++ keys_first d b) = keys_first d (a ++ b).
Proof. intros d a b. destruct d; try reflexivity; apply front_app_front. Qed.
Lemma good_keys : forall d l r, good_list d (l ++ r) -> good_list d (l ++ keys_first d r).
Proof.
  intros d l r (N & D & P). pose proof (Permutation_app_head l (Permutation_sym (keys_permuted d r))) as Q. split; [|split].
  - intros c Hc. apply N. eapply Permutation_in; [apply Permutation_sym, Q|exact Hc].
  - eapply distinct_permuted; [apply Permutation_map, Q|exact D].
  - destruct d; try exact I; apply few_front, P.
Qed.
Lemma append_good : forall d n srt cs c, sorter d n srt -> List.length (cs ++ [c]) <= n -> good_list d (cs ++ [c]) ->
  append_constraint d srt (keys_first d cs) c = Ok (keys_first d (cs ++ [c])).
Proof.
  intros d n srt cs c Hs Hn (N & D & P). pose proof (keys_permuted d cs) as Q. unfold append_constraint. rewrite replace_none.
  - unfold sorter in Hs. assert (S : forall srt, keeps_primary_first n srt -> few_keys (cs ++ [c]) -> sort_constraints srt (front cs ++ [c]) = front (cs ++ [c])).
    { clear - Hn. intros srt Hs [A B]. unfold front at 2. rewrite !filter_app in *. cbn [filter] in *. destruct (is_pkey c) eqn:K; cbn [negb] in *.
      - rewrite app_length in A. cbn [List.length] in A. assert (Z : filter is_pkey cs = []) by (destruct (filter is_pkey cs); [reflexivity|cbn in A; lia]).
        unfold front. rewrite Z, (few_none cs Z). cbn [List.app]. rewrite app_nil_r. unfold sort_constraints. specialize (B cs c [] eq_refl K).
        assert (L : Nat.leb (List.length (cs ++ [c])) 12 = true) by (apply Nat.leb_le; rewrite app_length; cbn; lia). rewrite L.
        assert (NP : forallb (fun c => negb (is_pkey c)) cs = true).
        { apply forallb_forall. intros x Hx. destruct (is_pkey x) eqn:E; [|reflexivity]. assert (In x (filter is_pkey cs)) as Ix by (apply filter_In; split; assumption). rewrite Z in Ix. destruct Ix. }
        destruct cs as [|x cs]; [reflexivity|]. cbn [List.app]. cbn [forallb] in NP. apply andb_true_iff in NP. destruct NP as [_ NP].
        assert (IA : forall todo done, forallb (fun c => negb (is_pkey c)) todo = true -> insert_primaries done (todo ++ [c]) = c :: done ++ todo).
        { intro todo. induction todo as [|t todo IH]; intros done F; [cbn [List.app insert_primaries]; destruct c; try discriminate K; rewrite app_nil_r; reflexivity|].
          cbn [forallb] in F. apply andb_true_iff in F. destruct F as [F1 F2]. cbn [List.app insert_primaries].
          assert (E : is_primary t = false) by (destruct t; [discriminate F1|reflexivity..]). rewrite E, IH by exact F2. rewrite <- app_assoc. reflexivity. }
        apply IA, NP.
      - rewrite app_nil_r, app_assoc. change (filter is_pkey cs ++ filter (fun c => negb (is_pkey c)) cs) with (front cs). apply (sort_same n); [exact Hs| |].
        + rewrite app_length in *. rewrite (Permutation_length (front_permuted cs)). exact Hn.
        + rewrite app_nil_r in A. unfold front.
          assert (NN : forall l, forallb (fun c => negb (is_pkey c)) (filter (fun c => negb (is_pkey c)) l) = true) by (intro l; apply forallb_forall; intros y Hy; apply filter_In in Hy; apply Hy).
          destruct (filter is_pkey cs) as [|p [|q r]]; [| |cbn in A; lia]; cbn [List.app].
          * destruct (filter (fun c => negb (is_pkey c)) cs) as [|y l] eqn:F; [reflexivity|]. cbn [List.app tl]. specialize (NN cs). rewrite F in NN. cbn [forallb] in NN. apply andb_true_iff in NN. destruct NN as [_ NN].
            rewrite forallb_app, NN. cbn [forallb]. rewrite K. reflexivity.
          * cbn [tl]. rewrite forallb_app, NN. cbn [forallb]. rewrite K. reflexivity. }
    destruct d; try reflexivity; f_equal; apply S; assumption.
  - intros x Hx. apply N, in_or_app. left. eapply Permutation_in; [exact Q|exact Hx].
  - apply N, in_or_app. right. left. reflexivity.
  - eapply distinct_permuted; [|exact D]. apply Permutation_map, Permutation_app_tail, Permutation_sym, Q.
Qed.
Lemma appends_good : forall d n srt new cs, sorter d n srt -> List.length (cs ++ new) <= n -> good_list d (cs ++ new) ->
  append_constraints d srt (keys_first d cs) new = Ok (keys_first d (cs ++ new)).
Proof.
  intros d n srt new. induction new as [|c new IH]; intros cs Hs Hn G; [rewrite app_nil_r; reflexivity|]. cbn [append_constraints].
  change (cs ++ c :: new) with (cs ++ [c] ++ new) in *. rewrite app_assoc in *. rewrite (append_good d n); [|exact Hs| |apply (good_prefix d _ new), G].
  - cbn [bind]. apply IH; assumption.
  - rewrite !app_length in *. lia.
Qed.

Definition key_tail (d : dialect) : list tokentype := [TOKEN_COMMA; TOKEN_CLOSE_PAREN] ++ match d with My => [TOKEN_COMMENT] | Sp => [TOKEN_OPTIONS] | _ => [] end.
(** What is left when the keys have been read. *)
Definition left_by (d : dialect) (ks : list inline) (rest : list token) : list token := if existsb (greedy d) ks then tl rest else rest.
Definition followed_well (d : dialect) (ks : list inline) (rest : list token) : Prop :=
  if existsb (greedy d) ks then exists r, rest = tComma :: r /\ curT r = TOKEN_IDENT else isin (curT rest) (key_tail d) = true.
Lemma left_end : forall d ks rest, followed_well d ks rest -> isin (curT (left_by d ks rest)) (TOKEN_IDENT :: key_tail d) = true.
Proof.
  intros d ks rest H. unfold left_by, followed_well in *. destruct (existsb (greedy d) ks).
  - destruct H as (r & -> & E). cbn [tl]. rewrite E. reflexivity.
  - unfold isin in *. cbn [existsb]. rewrite H. apply orb_true_r.
Qed.
Lemma action_run : forall d s rest, match d with Sp => false | _ => true end = true -> In s actions -> nb (action_toks d s ++ rest) -> eqs (curT rest) TOKEN_ON = false ->
  exists z, parseColumnOn d (action_toks d s ++ rest) = Ok (s, match d with My => rest | _ => z :: rest end).
Proof.
  intros d s rest Hd I Hnb Hr. cbn [In actions] in I.
  destruct I as [<-|[<-|[<-|[<-|[]]]]]; (destruct d; try discriminate Hd; [eexists|eexists|exists tComma]);
  match goal with |- context [action_toks ?a ?b] => let v := eval vm_compute in (action_toks a b) in change (action_toks a b) with v in * end;
  unfold parseColumnOn, parseOnAction, parseOn; cbn [List.app] in *; run; unfold curT in Hr; try rewrite Hr; reflexivity.
Qed.
Lemma keys_run : forall d n srt tbl col l, sorter d n srt -> starts_with_mark d (id_name tbl) = false ->
  forall ks cs fuel rest, keys_ok d ks l = true -> List.length (cs ++ map (inline_meant d (id_name tbl) col) ks) <= n ->
  good_list d (cs ++ map (inline_meant d (id_name tbl) col) ks) -> nb (flat_map (inline_toks d) ks ++ rest) -> followed_well d ks rest ->
  List.length (flat_map (inline_toks d) ks ++ rest) < fuel ->
  parseColumnConstraints_loop d srt fuel tbl col (keys_first d cs) (flat_map (inline_toks d) ks ++ rest) =
  Ok (keys_first d (cs ++ map (inline_meant d (id_name tbl) col) ks), left_by d ks rest).
Proof.
  intros d n srt tbl col l Hs M ks. induction ks as [|k ks IH]; intros cs fuel rest Hk Hn G Hnb Hr Hf; (destruct fuel as [|fuel]; [lia|]).
  - cbn [flat_map map List.app]. rewrite app_nil_r. cbn [parseColumnConstraints_loop]. apply isin_in in Hr. unfold left_by. cbn [existsb].
    destruct d; unfold key_tail in Hr; cbn [List.app In] in Hr; repeat (destruct Hr as [Hr|Hr]; [rewrite <- Hr; run; reflexivity|]); destruct Hr.
  - cbn [map] in *. change (cs ++ inline_meant d (id_name tbl) col k :: map (inline_meant d (id_name tbl) col) ks)
      with (cs ++ [inline_meant d (id_name tbl) col k] ++ map (inline_meant d (id_name tbl) col) ks) in *. rewrite app_assoc in *.
    assert (A : append_constraint d srt (keys_first d cs) (inline_meant d (id_name tbl) col k) = Ok (keys_first d (cs ++ [inline_meant d (id_name tbl) col k]))).
    { apply (append_good d n); [exact Hs|rewrite !app_length in *; lia|apply (good_prefix d _ _ G)]. }
    cbn [flat_map] in *. rewrite <- (app_assoc (inline_toks d k)) in *. cbn [keys_ok] in Hk. apply andb_true_iff in Hk. destruct Hk as [Hk Hks]. apply andb_true_iff in Hk. destruct Hk as [Hk Hg].
    assert (R : greedy d k = false -> forall fuel', List.length (flat_map (inline_toks d) ks ++ rest) < fuel' ->
       parseColumnConstraints_loop d srt fuel' tbl col (keys_first d (cs ++ [inline_meant d (id_name tbl) col k])) (flat_map (inline_toks d) ks ++ rest) =
       Ok (keys_first d ((cs ++ [inline_meant d (id_name tbl) col k]) ++ map (inline_meant d (id_name tbl) col) ks), left_by d (k :: ks) rest)).
    { intros Gk fuel' Hf'. unfold left_by, followed_well in *. cbn [existsb] in *. rewrite Gk in *. cbn [orb] in *. apply IH; auto. apply nb_app_r in Hnb; exact Hnb. }
    assert (R' : greedy d k = true -> exists r, ks = [] /\ flat_map (inline_toks d) ks ++ rest = tComma :: r /\
       forall fuel', List.length r < fuel' ->
       parseColumnConstraints_loop d srt fuel' tbl col (keys_first d (cs ++ [inline_meant d (id_name tbl) col k])) r =
       Ok (keys_first d ((cs ++ [inline_meant d (id_name tbl) col k]) ++ map (inline_meant d (id_name tbl) col) ks), left_by d (k :: ks) rest)).
    { intro Gk. rewrite Gk in Hg. cbn [negb orb] in Hg. destruct ks as [|k' ks]; [|discriminate Hg]. unfold left_by, followed_well in *. cbn [existsb] in *. rewrite Gk in *. cbn [orb] in *.
      destruct Hr as (r & -> & E). exists r. split; [reflexivity|]. split; [reflexivity|]. intros fuel' Hf'. destruct fuel' as [|fuel']; [lia|]. cbn [map tl]. rewrite app_nil_r.
      cbn [parseColumnConstraints_loop]. rewrite E. destruct d; run; reflexivity. }
    destruct k as [| |ref cls action|e]; cbn [inline_toks List.app List.length inline_meant inline_ok] in *.
    + rewrite <- (pkey_plain d tbl M) in *. cbn [parseColumnConstraints_loop]. specialize (R eq_refl).
      destruct d; try discriminate Hk; run; rewrite A; cbn [bind]; run; apply R; lia.
    + assert (N : col_unique_name d tbl col = plain_name (id_name tbl ++ "_unique_" ++ id_name col)%string).
      { unfold col_unique_name, ident_diff. apply name_plain, mark_app; [exact M|destruct d; reflexivity]. }
      rewrite <- N in *. cbn [parseColumnConstraints_loop]. specialize (R eq_refl).
      destruct d; try discriminate Hk; run; rewrite A; cbn [bind]; run; apply R; lia.
    + assert (N : col_fkey_name d tbl col = plain_name (id_name tbl ++ "_" ++ id_name col ++ "_fkey")%string).
      { unfold col_fkey_name, ident_diff. apply name_plain, mark_app; [exact M|destruct d; reflexivity]. }
      rewrite <- N in *. apply andb_true_iff in Hk. destruct Hk as [Hk K3]. apply andb_true_iff in Hk. destruct Hk as [K1 K2]. pose proof (name_new d ref K1) as Nr.
      rewrite <- (app_assoc (cols_toks d cls)) in *. cbn [parseColumnConstraints_loop]. clear Hg. destruct (String.eqb action "") eqn:Ea.
      * apply String.eqb_eq in Ea. subst action. destruct (R' ltac:(destruct d; reflexivity)) as (r & -> & Er & Rr). clear R R'. cbn [flat_map List.app] in *. subst rest.
        change (action_toks d "") with (@nil token) in *. cbn [List.app] in *. assert (NB : nb r) by nbs. part d cls K2. pose proof (f_equal (@List.length _) E) as LE.
        assert (O : parseColumnOn d (tComma :: r) = Ok ("", tComma :: r)) by (destruct d; reflexivity). unfold tComma in O.
        destruct d; go; cbn [bind]; rewrite Nr, A; cbn [bind]; run; apply Rr; lens.
      * cbn [orb] in K3. assert (I : In action actions) by (apply action_in; destruct d; try discriminate K3; exact K3). cbn [In actions] in I.
        set (ta := action_toks d action) in *.
        destruct (greedy d (KReferences ref cls action)) eqn:Gd; cbn [greedy] in Gd.
        -- destruct (R' eq_refl) as (r & -> & Er & Rr). clear R R'. cbn [flat_map List.app] in *. subst rest. assert (NB : nb r) by nbs.
           destruct (action_run d action (tComma :: r)) as [z O]; [destruct d; try discriminate K3; reflexivity|exact I|fold ta; nbs|reflexivity|]. fold ta in O. unfold tComma in O.
           part d cls K2. pose proof (f_equal (@List.length _) E) as LE.
           destruct d; try congruence; try discriminate K3. go. rewrite Nr, A; cbn [bind]; run; apply Rr; lens.
        -- specialize (R eq_refl). clear R'. assert (NB : nb (flat_map (inline_toks d) ks ++ rest)) by nbs.
           assert (NO : eqs (curT (flat_map (inline_toks d) ks ++ rest)) TOKEN_ON = false).
           { unfold followed_well in Hr. cbn [existsb] in Hr. destruct ks as [|k ks].
             - cbn [flat_map List.app existsb] in *. destruct (greedy d (KReferences ref cls action)) eqn:Gd'; cbn [greedy] in Gd'; [congruence|]. cbn [orb] in Hr.
               apply isin_in in Hr. destruct d; unfold key_tail in Hr; cbn [List.app In] in Hr; repeat (destruct Hr as [Hr|Hr]; [rewrite <- Hr; reflexivity|]); destruct Hr.
             - destruct k, d; reflexivity. }
           destruct (action_run d action (flat_map (inline_toks d) ks ++ rest)) as [z O]; [destruct d; try discriminate K3; reflexivity|exact I|fold ta; nbs|exact NO|]. fold ta in O.
           part d cls K2. pose proof (f_equal (@List.length _) E) as LE.
           destruct d; try discriminate Gd; try discriminate K3; go; rewrite Nr, A; cbn [bind]; run; apply R; lens.
    + assert (N : col_check_name d tbl col = plain_name (id_name tbl ++ "_" ++ id_name col ++ "_check")%string).
      { unfold col_check_name, ident_diff. apply name_plain, mark_app; [exact M|destruct d; reflexivity]. }
      rewrite <- N in *. destruct (R' eq_refl) as (r & -> & Er & Rr). clear R R'. cbn [flat_map List.app] in *. subst rest.
      assert (NB : nb r) by nbs. destruct (group_part d e (tComma :: r) Hk) as [t [q [E [T [R _]]]]]; [nbs|rewrite E in *; pose proof (f_equal (@List.length _) E) as LE]. cbn [parseColumnConstraints_loop].
      destruct d; go; apply Rr; lens.
Qed.

Definition wcolumn_toks (d : dialect) (c : wcolumn) : list token := tI (id_raw (wc_name c)) :: type_toks d c.
Lemma keys_late : forall d l ks, keys_ok d ks l = true -> existsb (greedy d) ks = true -> l = LNone.
Proof.
  intros d l ks. induction ks as [|k ks IH]; intros H G; [discriminate G|]. cbn [keys_ok existsb] in *. apply andb_true_iff in H. destruct H as [H H2]. apply andb_true_iff in H. destruct H as [_ H].
  destruct (greedy d k); cbn [negb orb] in *; [|apply IH; assumption]. destruct ks; [|discriminate H]. destruct l; [reflexivity|discriminate H..].
Qed.
Definition column_behind (d : dialect) (c : wcolumn) (rest : list token) : Prop :=
  if takes_comma d c then exists r, rest = tComma :: r /\ curT r = TOKEN_IDENT else item_stop (curT rest) = true.
Lemma column_stop : forall d c rest, column_behind d c rest -> item_stop (curT rest) = true.
Proof. intros d c rest H. unfold column_behind in H. destruct (takes_comma d c); [|exact H]. destruct H as (r & -> & _). reflexivity. Qed.
Lemma wcolumn_run : forall d n srt tbl c rest, sorter d n srt -> starts_with_mark d (id_name tbl) = false -> wcolumn_ok d c = true ->
  List.length (wc_keys c) <= n -> good_list d (map (inline_meant d (id_name tbl) (wc_name c)) (wc_keys c)) ->
  nb (wcolumn_toks d c ++ rest) -> column_behind d c rest ->
  parseColumn d srt tbl (wcolumn_toks d c ++ rest) = Ok (column_meant c, keys_first d (map (inline_meant d (id_name tbl) (wc_name c)) (wc_keys c)), left_by d (wc_keys c) rest).
Proof.
  intros d n srt tbl c rest Hsr M H Hn G Hnb Hb. pose proof (column_stop d c rest Hb) as Hs. destruct (wcolumn_parts d c H) as (Hm & Ht & Hc & Hk & Hl).
  unfold wcolumn_toks, type_toks in *. cbn [List.app] in *. rewrite <- !app_assoc in *.
  pose proof (clauses_first d c rest H Hs) as Fs. unfold tail_toks in Fs. rewrite <- !app_assoc in Fs.
  pose proof (nb_tl _ _ Hnb) as Hnb1.
  destruct (datatype_run d (wc_type c) _ Ht Hnb1 Fs) as [x [E1 E2]].
  unfold parseColumn. unfold curT at 1, curL. cbn [cur tI tk_type tk_lit]. test1. cbn [guard bind]. rewrite next_ok by exact Hnb1. cbn [bind].
  rewrite E2, E1. cbn [bind]. apply nb_app_r in Hnb1. rewrite next_ok by exact Hnb1. cbn [bind]. rewrite (name_new d _ Hm).
  pose proof (clauses_read d (wc_clauses c) (column0 (wc_name c) (wc_type c)) (wc_keys c) (wc_late c) rest Hc Hl Hs) as R. rewrite <- app_assoc in R.
  destruct (R _ (Nat.lt_succ_diag_r _) Hnb1) as [f [F1 F2]]. rewrite F2. clear F2 R.
  pose proof (tail_first d c rest Hl Hs) as T1. unfold tail_toks in T1. rewrite <- app_assoc in T1.
  rewrite attrs_tail; [|exact T1|exact F1]. cbn [bind]. apply nb_app_r in Hnb1. clear F1 E1 E2 Fs T1 Hnb.
  assert (K0 : keys_first d [] = []) by (destruct d; reflexivity).
  assert (FW : followed_well d (wc_keys c) (wlate_toks d (wc_late c) ++ rest)).
  { unfold column_behind, takes_comma in Hb. unfold followed_well. destruct (existsb (greedy d) (wc_keys c)) eqn:Gr.
    - rewrite (keys_late d _ _ Hk Gr). exact Hb.
    - destruct (item_stop_cases rest Hs) as [t [r [E T]]]. subst rest. destruct (wc_late c) as [|s|l]; cbn [wlate_toks List.app].
      + unfold curT. cbn [cur]. destruct T as [T|T]; rewrite T; destruct d; reflexivity.
      + destruct d; try discriminate Hl. reflexivity.
      + destruct d; try discriminate Hl. reflexivity. }
  unfold parseColumnConstraints. rewrite <- K0. rewrite (keys_run d n srt tbl (wc_name c) (wc_late c)); auto; [|cbn [List.app]; rewrite map_length; exact Hn].
  cbn [bind List.app]. rewrite (appends_good d n); [|exact Hsr|cbn [List.app]; rewrite keys_length, map_length; exact Hn|apply (good_keys d []), G]. rewrite (keys_app d []). cbn [bind List.app].
  apply nb_app_r in Hnb1. unfold column_meant.
  change (column0 (wc_name c) (wc_type c)) with (mkCol (wc_name c) (wc_type c) None false false None None None false "" "" None).
  assert (Q : forall c0 ks, (c_comment c0 = "" -> c_comment (fold_left on ks c0) = "") /\ (c_options c0 = None -> c_options (fold_left on ks c0) = None)).
  { intros c0 ks. revert c0. induction ks as [|k ks IH]; intros c0; [split; auto|]. cbn [fold_left]. destruct (IH (on c0 k)) as [I1 I2]. split; intro Z; [apply I1|apply I2]; destruct c0, k; exact Z. }
  destruct (Q (mkCol (wc_name c) (wc_type c) None false false None None None false "" "" None) (wc_clauses c)) as [Q1 Q2].
  specialize (Q1 eq_refl). specialize (Q2 eq_refl).
  destruct (fold_left on (wc_clauses c) (mkCol (wc_name c) (wc_type c) None false false None None None false "" "" None)) as [n0 t0 df nn nv a cs co ai oa cm op].
  cbn [c_comment c_options] in Q1, Q2. subst cm op. clear FW K0.
  unfold left_by, column_behind, takes_comma in *. destruct (existsb (greedy d) (wc_keys c)) eqn:Gr.
  - rewrite (keys_late d _ _ Hk Gr). destruct Hb as (r & -> & E). cbn [wlate_toks List.app tl]. destruct d; try reflexivity; rewrite E; run; reflexivity.
  - destruct (item_stop_cases rest Hs) as [t [r [E T]]]. subst rest. destruct (wc_late c) as [|s|l]; cbn [wlate_toks List.app] in *.
    + destruct d; try reflexivity; see; destruct T as [T|T]; rewrite T; run; reflexivity.
    + destruct d; try discriminate Hl. run. unfold text_tok. destruct (is_word s); reflexivity.
    + destruct d; try discriminate Hl. cbn [late_ok] in Hl. run. rewrite group_run; [reflexivity|exact Hl|nbs].
Qed.

(** * Items *)

Definition item_toks (d : dialect) (i : item) : list token :=
  match i with ICol c => wcolumn_toks d c | ICon c => constraint_toks d c | INameless c => constraint_toks d (rename None c) end.
Lemma item_TT : forall d i, item_ok d i = true -> TT d (item_string d i) (item_toks d i).
Proof.
  intros d i H. destruct i as [c|c|c]; cbn [item_ok item_string item_toks] in *.
  - unfold wcolumn_toks. change (tI (id_raw (wc_name c)) :: type_toks d c) with ([tI (id_raw (wc_name c))] ++ type_toks d c).
    apply TT_blank; [|apply type_TT, H]. destruct (wcolumn_parts d c H) as (Hn & _). apply name_TT, Hn.
  - apply constraint_TT, H.
  - apply nameless_TT, H.
Qed.
Lemma item_pos : forall d i, 1 <= List.length (item_toks d i).
Proof. intros d i. destruct i as [c|c|c]; cbn [item_toks]; [cbn; lia|apply constraint_toks_pos..]. Qed.
Definition item_left (d : dialect) (i : item) (r : list token) : list token := match i with ICol c => left_by d (wc_keys c) r | _ => r end.
Definition item_behind (d : dialect) (i : item) (r : list token) : Prop := match i with ICol c => column_behind d c r | _ => item_stop (curT r) = true end.
Lemma item_step : forall d n srt tbl cols cs i fuel r, sorter d n srt -> starts_with_mark d (id_name tbl) = false -> item_ok d i = true ->
  List.length (cs ++ item_constraints d (id_name tbl) i) <= n -> good_list d (cs ++ item_constraints d (id_name tbl) i) ->
  nb (item_toks d i ++ r) -> item_behind d i r ->
  parseColumns_loop d srt (S fuel) tbl cols (keys_first d cs) (item_toks d i ++ r)
  = parseColumns_loop d srt fuel tbl (cols ++ item_columns i) (keys_first d (cs ++ item_constraints d (id_name tbl) i)) (item_left d i r).
Proof.
  intros d n srt tbl cols cs i fuel r Hs M H Hn G Hnb Hr. destruct i as [c|c|c]; cbn [item_ok item_toks item_constraints item_columns item_left item_behind] in *; cbn [parseColumns_loop].
  - change (eqs (curT (wcolumn_toks d c ++ r)) TOKEN_IDENT) with true. cbn [item_toks].
    rewrite (wcolumn_run d n); auto; [|rewrite app_length, map_length in Hn; lia|apply (good_suffix d cs), G].
    cbn [bind]. rewrite (appends_good d n); [|exact Hs|rewrite app_length, keys_length, <- app_length; exact Hn|apply good_keys, G]. rewrite keys_app. reflexivity.
  - destruct (constraint_run d tbl c r H Hnb Hr) as [R [C I]]. rewrite I, C, R. cbn [bind]. rewrite (append_good d n) by assumption. rewrite app_nil_r. reflexivity.
  - destruct (nameless_run d tbl c r H M Hnb Hr) as [R [C I]]. rewrite I, C, R. cbn [bind]. rewrite (append_good d n) by assumption. rewrite app_nil_r. reflexivity.
Qed.
Lemma items_loop : forall d n srt tbl, sorter d n srt -> starts_with_mark d (id_name tbl) = false ->
  forall l cs cols fuel rest, forallb (item_ok d) l = true -> columns_follow d l = true -> List.length (cs ++ flat_map (item_constraints d (id_name tbl)) l) <= n ->
  good_list d (cs ++ flat_map (item_constraints d (id_name tbl)) l) -> nb (commas (map (item_toks d) l) ++ tClose :: rest) -> end_ok d rest ->
  2 * List.length l < fuel ->
  parseColumns_loop d srt fuel tbl cols (keys_first d cs) (commas (map (item_toks d) l) ++ tClose :: rest) =
  Ok (cols ++ flat_map item_columns l, keys_first d (cs ++ flat_map (item_constraints d (id_name tbl)) l), table_end d rest).
Proof.
  intros d n srt tbl Hs M l. induction l as [|i l IH]; intros cs cols fuel rest H Hc Hn G Hnb He Hf; (destruct fuel as [|fuel]; [lia|]).
  - cbn [map commas List.app flat_map] in *. rewrite columns_end by assumption. rewrite !app_nil_r. reflexivity.
  - cbn [map flat_map forallb List.length] in *. apply andb_true_iff in H. destruct H as [H1 H2]. rewrite commas_cons in *. rewrite app_assoc in Hn, G.
    assert (Hc2 : columns_follow d l = true) by (cbn [columns_follow] in Hc; destruct i; [apply andb_true_iff in Hc; apply Hc|exact Hc..]).
    assert (B : item_behind d i (behind (map (item_toks d) l) (tClose :: rest))).
    { destruct i as [c|c|c]; cbn [item_behind]; try apply behind_stop. unfold column_behind. cbn [columns_follow] in Hc. apply andb_true_iff in Hc. destruct Hc as [Hc _].
      destruct (takes_comma d c); [|apply behind_stop]. destruct l as [|[w|w|w] l]; try discriminate Hc. cbn [map behind]. eexists. split; [reflexivity|]. rewrite commas_cons. reflexivity. }
    rewrite (item_step d n); [|exact Hs|exact M|exact H1|rewrite app_length in Hn; lia|apply (good_prefix d _ _ G)|exact Hnb|exact B].
    rewrite !app_assoc. destruct l as [|j l].
    + assert (L : item_left d i (tClose :: rest) = tClose :: rest).
      { destruct i as [c|c|c]; try reflexivity. cbn [item_left]. unfold left_by. cbn [columns_follow] in Hc. unfold takes_comma in Hc. destruct (existsb (greedy d) (wc_keys c)); [discriminate Hc|reflexivity]. }
      cbn [map behind flat_map] in *. rewrite L. destruct fuel as [|fuel]; [lia|]. rewrite !app_nil_r. apply columns_end; [|exact He]. apply nb_app_r in Hnb. exact Hnb.
    + cbn [map behind] in Hnb |- *. destruct fuel as [|fuel]; [lia|]. apply nb_app_r in Hnb.
      assert (L : forall r, item_left d i (tComma :: r) = tComma :: r \/ item_left d i (tComma :: r) = r).
      { intro r. destruct i as [c|c|c]; [|left; reflexivity..]. cbn [item_left]. unfold left_by. destruct (existsb (greedy d) (wc_keys c)); [right|left]; reflexivity. }
      destruct (L (commas (item_toks d j :: map (item_toks d) l) ++ tClose :: rest)) as [E|E]; rewrite E.
      * rewrite comma_skip by exact Hnb. apply IH; auto; [nbs|lia].
      * apply IH; auto; [nbs|lia].
Qed.

(** * Tables *)

Definition wtable_toks (d : dialect) (t : wtable) : list token :=
  lex d "CREATE TABLE " ++ ine_toks d (wt_ifnotexists t) ++ [tI (objname_string (wt_name t))] ++ [tOpen]
  ++ commas (map (item_toks d) (wt_items t)) ++ [tClose]
  ++ options_toks d (wt_options t) ++ rowdel_toks d (wt_rowdel t) ++ [tSemi].
Lemma few_first : forall cs, forallb (fun c => negb (is_pkey c)) (skipn 12 cs) = true -> forall a c b, cs = a ++ c :: b -> is_pkey c = true -> List.length a < 12.
Proof.
  intros cs H a c b -> K. destruct (Nat.lt_ge_cases (List.length a) 12) as [L|L]; [exact L|]. rewrite skipn_app in H. replace (12 - List.length a) with 0 in H by lia.
  rewrite forallb_app in H. apply andb_true_iff in H. destruct H as [_ H]. cbn [skipn forallb] in H. rewrite K in H. discriminate H.
Qed.
Lemma wtable_parts : forall d t, wtable_ok d t = true ->
  objname_ok d (wt_name t) = true /\ starts_with_mark d (table_name t) = false /\ forallb (item_ok d) (wt_items t) = true
  /\ good_list d (table_constraints d t) /\ forallb (option_ok d) (wt_options t) = true /\ rowdel_ok d (wt_rowdel t) = true.
Proof.
  intros d t H. unfold wtable_ok in H. apply andb_true_iff in H. destruct H as [H H7]. apply andb_true_iff in H. destruct H as [H H6].
  apply andb_true_iff in H. destruct H as [H H5]. apply andb_true_iff in H. destruct H as [H H4]. apply andb_true_iff in H. destruct H as [H _]. apply andb_true_iff in H. destruct H as [H H3].
  apply andb_true_iff in H. destruct H as [H1 H2]. apply negb_true_iff in H2. split; [exact H1|]. split; [exact H2|]. split; [exact H3|]. split; [|split; assumption].
  split; [|split; [exact H4|]]; [|destruct d; try exact I; unfold one_key in H5; apply andb_true_iff in H5; destruct H5 as [A B]; (split; [apply Nat.leb_le, A|]); apply few_first, B].
  intros c Hc. unfold table_constraints in Hc. apply in_flat_map in Hc. destruct Hc as [i [Hi Hc]]. rewrite forallb_forall in H3. specialize (H3 i Hi).
  destruct i as [w|k|k]; cbn [item_constraints item_ok] in *.
  - apply in_map_iff in Hc. destruct Hc as [k [<- _]]. unfold named. destruct k; cbn [inline_meant]; [discriminate|destruct d; discriminate|discriminate..].
  - destruct Hc as [<-|[]]. apply (constraint_named d), H3.
  - destruct Hc as [<-|[]]. unfold named. destruct k; discriminate.
Qed.
Lemma wtable_follow : forall d t, wtable_ok d t = true -> columns_follow d (wt_items t) = true.
Proof. intros d t H. unfold wtable_ok in H. do 4 (apply andb_true_iff in H; destruct H as [H _]). apply andb_true_iff in H. apply H. Qed.
Lemma head_TT : forall d t, objname_ok d (wt_name t) = true -> TT d (head_string t) (lex d "CREATE TABLE " ++ ine_toks d (wt_ifnotexists t) ++ [tI (objname_string (wt_name t))]).
Proof.
  intros d t H. unfold head_string. apply FF_TT_app; [lit_FF|].
  apply FF_TT_app; [destruct (wt_ifnotexists t); [unfold ine_toks; lit_FF|apply FF_nil]|]. apply (objname_facts d _ H).
Qed.
Lemma wtable_FF : forall d t, wtable_ok d t = true -> FF d (wtable_string d t) (wtable_toks d t).
Proof.
  intros d t H. destruct (wtable_parts d t H) as (H1 & _ & H3 & _ & H5 & H6). unfold wtable_string, wtable_toks.
  rewrite 2 app_assoc. rewrite <- (app_assoc (lex d "CREATE TABLE ")).
  apply TT_FF_app; [apply head_TT, H1| |apply lead1_app, lead1_byte; reflexivity].
  apply FF_FF_app; [lit_FF|]. apply (FF_FF_app d nl []); [apply nl_FF|].
  apply FF_FF_app.
  - rewrite forallb_forall in H3. pose proof (lines_FF d (map (fun i => (item_string d i, item_toks d i)) (wt_items t))) as L.
    rewrite !map_map in L. cbn [fst snd] in L. apply L. intros a ta Hp. apply in_map_iff in Hp. destruct Hp as [i [E Hi]]. inversion E; subst a ta. apply item_TT, H3, Hi.
  - apply FF_FF_app; [apply close_FF|]. rewrite <- !app_s_assoc. rewrite app_assoc. rewrite app_s_assoc.
    apply TT_FF_app; [apply (SEG_app d); [|apply rowdel_SEG, H6]|lit_FF|apply lead1_byte; reflexivity].
    pose proof (options_SEG d _ H5) as O. destruct (wt_options t) as [|o l]; [exact O|]. destruct d; try discriminate H5; exact O.
Qed.
Definition wkept (d : dialect) (srt : list constraint -> list constraint) (w : written) : Prop :=
  match w with WTable t => sorter d (List.length (table_constraints d t)) srt | WIndex _ => True end.
Lemma wtable_run : forall d srt t rest, wkept d srt (WTable t) -> wtable_ok d t = true -> nb (wtable_toks d t ++ rest) ->
  exists r, wtable_toks d t ++ rest = W d "CREATE" :: r /\ parseCreate d srt (W d "CREATE" :: r) = Ok (CreateTable (table_meant d t), table_behind d rest).
Proof.
  intros d srt t rest Hs H Hnb. destruct (wtable_parts d t H) as (H2 & M & H3 & H4 & H5 & H6).
  unfold wtable_toks in *.
  assert (E : lex d "CREATE TABLE " = [W d "CREATE"; W d "TABLE"]) by (destruct d; reflexivity). rewrite E in *. rewrite <- !app_assoc in *. cbn [List.app] in *.
  eexists. split; [reflexivity|]. rewrite <- ?app_assoc in *. cbn [List.app] in *.
  set (B := commas (map (item_toks d) (wt_items t)) ++ tClose :: options_toks d (wt_options t) ++ rowdel_toks d (wt_rowdel t) ++ tSemi :: rest) in *.
  unfold parseCreate. rewrite next_ok by nbs. cbn [bind].
  assert (T : eqs (curT (W d "TABLE" :: ine_toks d (wt_ifnotexists t) ++ tI (objname_string (wt_name t)) :: tOpen :: B)) TOKEN_TABLE = true)
    by (destruct d; reflexivity). rewrite T. unfold parseCreateTable.
  destruct (ine_run d (wt_ifnotexists t) (W d "TABLE") (tI (objname_string (wt_name t))) (tOpen :: B)) as [z Z]; [nbs|reflexivity|].
  rewrite Z. cbn [bind]. clear Z T.
  assert (N0 : nb (tI (objname_string (wt_name t)) :: tOpen :: B)) by nbs. clear Hnb.
  rewrite next_ok by exact N0. cbn [bind]. unfold curT at 1. cbn [cur tI tk_type]. test1. cbn [guard bind].
  rewrite next_ok by nbs. cbn [bind]. unfold curT at 1. cbn [cur tOpen tk_type]. test1. cbn [guard bind]. rewrite next_ok by nbs. cbn [bind].
  unfold curL. cbn [cur tI tk_lit]. destruct (objname_facts d (wt_name t) H2) as [_ N]. rewrite N.
  assert (NB : nb B) by nbs. unfold B in NB |- *. assert (K0 : keys_first d [] = []) by (destruct d; reflexivity). rewrite <- K0 at 1. rewrite (items_loop d (List.length (table_constraints d t))).
  - cbn [bind List.app]. apply nb_app_r in NB. fold (table_name t). fold (table_constraints d t). unfold table_meant.
    destruct d; cbn [table_end table_behind bind options_toks] in *.
    + destruct (wt_options t) as [|o l]; [|discriminate H5]. destruct (wt_rowdel t); [discriminate H6|]. reflexivity.
    + destruct (wt_options t) as [|o l]; [|discriminate H5]. destruct (wt_rowdel t); [discriminate H6|]. reflexivity.
    + destruct (wt_rowdel t); [discriminate H6|]. cbn [rowdel_toks List.app] in *. rewrite options_My; [reflexivity|exact H5|nbs|].
      rewrite app_length. assert (L : List.length (wt_options t) <= List.length (flat_map (option_toks My) (wt_options t))).
      { clear - H5. induction (wt_options t) as [|o l IH]; [cbn; lia|]. cbn [forallb] in H5. apply andb_true_iff in H5. destruct H5 as [O H5].
        cbn [flat_map List.length]. rewrite app_length. specialize (IH H5). pose proof (option_pos My o O). lia. }
      lens.
    + destruct (options_Sp (wt_options t) [] None (S (List.length (commas (map (option_toks Sp) (wt_options t)) ++ rowdel_toks Sp (wt_rowdel t) ++ tSemi :: rest)))
                (rowdel_toks Sp (wt_rowdel t) ++ tSemi :: rest) H5) as [f [F1 F2]]; [nbs|destruct (wt_rowdel t); reflexivity| |].
      * assert (L : 2 * List.length (map (option_toks Sp) (wt_options t)) <= S (List.length (commas (map (option_toks Sp) (wt_options t))))).
        { apply commas_length. intros x Hx. apply in_map_iff in Hx. destruct Hx as [o [E' Ho]]. subst x. rewrite forallb_forall in H5. pose proof (option_pos Sp o (H5 o Ho)). lia. }
        rewrite map_length in L. rewrite !app_length. lia.
      * rewrite F2. rewrite rowdel_Sp; [reflexivity|exact H6|nbs|].
        assert (L : 2 * List.length (map (option_toks Sp) (wt_options t)) <= List.length (commas (map (option_toks Sp) (wt_options t)))).
        { apply commas_length2. intros x Hx. apply in_map_iff in Hx. destruct Hx as [o [E' Ho]]. subst x. rewrite forallb_forall in H5. exact (option_pos Sp o (H5 o Ho)). }
        rewrite map_length in L. rewrite !app_length in F1. cbn [List.length] in F1.
        lia.
  - exact Hs.
  - exact M.
  - exact H3.
  - apply wtable_follow, H.
  - apply le_n.
  - exact H4.
  - exact NB.
  - unfold end_ok. destruct d; try exact I; (destruct (wt_options t) as [|o l]; [|discriminate H5]); (destruct (wt_rowdel t); [discriminate H6|]); reflexivity.
  - assert (L : 2 * List.length (map (item_toks d) (wt_items t)) <= S (List.length (commas (map (item_toks d) (wt_items t))))).
    { apply commas_length. intros x Hx. apply in_map_iff in Hx. destruct Hx as [c [E' _]]. subst x. apply item_pos. }
    rewrite map_length in L. rewrite app_length. cbn [List.length]. lia.
Qed.

(** * Schemas *)

Definition written_toks (d : dialect) (w : written) : list token := match w with WTable t => wtable_toks d t | WIndex x => create_index_toks d x end.
Definition written_text (d : dialect) (l : list written) : string := concat_str (map (written_string d) l).
Lemma written_FF : forall d l, forallb (written_ok d) l = true -> FF d (written_text d l) (flat_map (written_toks d) l).
Proof.
  intros d l. induction l as [|w l IH]; intro H; [apply FF_nil|]. cbn [forallb] in H. apply andb_true_iff in H. destruct H as [H1 H2].
  unfold written_text. cbn [map concat_str flat_map]. apply FF_FF_app; [|apply IH, H2]. destruct w; [apply wtable_FF, H1|apply create_index_FF, H1].
Qed.
Lemma written_pos : forall d w, 4 <= List.length (written_toks d w).
Proof.
  intros d w. destruct w; cbn [written_toks]; unfold wtable_toks, create_index_toks; rewrite !app_length; cbn [List.length];
  destruct d; fixed; cbn [List.length]; lia.
Qed.
Lemma written_loop : forall d srt l acc fuel, (forall w, In w l -> wkept d srt w) -> forallb (written_ok d) l = true -> nb (flat_map (written_toks d) l) -> 2 * List.length l < fuel ->
  parse_loop d srt fuel acc (flat_map (written_toks d) l) = Ok (acc ++ map (meant d) l).
Proof.
  intros d srt l. induction l as [|s l IH]; intros acc fuel Hs H Hnb Hf; (destruct fuel as [|fuel]; [lia|]).
  - cbn [map]. rewrite app_nil_r. reflexivity.
  - cbn [flat_map forallb map List.length] in *. apply andb_true_iff in H. destruct H as [H1 H2].
    assert (R : exists r, written_toks d s ++ flat_map (written_toks d) l = W d "CREATE" :: r /\
              parseCreate d srt (W d "CREATE" :: r) = Ok (meant d s, match s with WTable _ => table_behind d (flat_map (written_toks d) l) | _ => tSemi :: flat_map (written_toks d) l end)).
    { destruct s; [apply wtable_run; [apply Hs; left; reflexivity|..]|apply create_index_run]; assumption. }
    assert (Hs' : forall s, In s l -> wkept d srt s) by (intros y Hy; apply Hs; right; exact Hy).
    destruct R as [r [E R]]. rewrite E in *. cbn [parse_loop].
    assert (C : eqs (curT (W d "CREATE" :: r)) TOKEN_CREATE = true) by (destruct d; reflexivity). rewrite C, R. cbn [bind].
    assert (NL : nb (flat_map (written_toks d) l)) by (rewrite <- E in Hnb; apply nb_app_r in Hnb; exact Hnb).
    replace (acc ++ meant d s :: map (meant d) l) with ((acc ++ [meant d s]) ++ map (meant d) l) by (rewrite <- app_assoc; reflexivity).
    assert (D : (exists t, s = WTable t /\ (d = Pg \/ d = Crdb)) \/
                match s with WTable _ => table_behind d (flat_map (written_toks d) l) | _ => tSemi :: flat_map (written_toks d) l end = tSemi :: flat_map (written_toks d) l).
    { destruct s; [|right; reflexivity]. destruct d; try (right; reflexivity); left; eexists; (split; [reflexivity|auto]). }
    destruct D as [[t [Es D]]|D].
    + subst s. assert (B : table_behind d (flat_map (written_toks d) l) = tClose :: tSemi :: flat_map (written_toks d) l) by (destruct D; subst d; reflexivity).
      rewrite B. destruct fuel as [|fuel]; [lia|].
      assert (NS : nb (tSemi :: flat_map (written_toks d) l)) by (apply nb_cons; [discriminate|exact NL]). rewrite next_ok by exact NS. cbn [bind].
      cbn [parse_loop]. unfold curT. cbn [cur tSemi tk_type]. repeat test1. rewrite next_ok by exact NL. cbn [bind]. apply IH; auto. lia.
    + rewrite D. rewrite next_ok by exact NL. cbn [bind]. apply IH; auto. lia.
Qed.
Lemma written_parse : forall d srt l text, (forall w, In w l -> wkept d srt w) -> forallb (written_ok d) l = true -> lex d text = flat_map (written_toks d) l ->
  parse d srt text = Ok (map (meant d) l).
Proof.
  intros d srt l text Hs H E. destruct (written_FF d l H) as [Hnb _]. unfold parse. rewrite E. unfold parse_tokens.
  assert (B : eqs (curT (flat_map (written_toks d) l)) TOKEN_BOOM || eqs (peekT (flat_map (written_toks d) l)) TOKEN_BOOM = false).
  { destruct (flat_map (written_toks d) l) as [|x [|y r]]; [reflexivity| |]; inversion Hnb; subst; [|inversion H3; subst]; unfold curT, peekT; cbn [cur peek];
    unfold eqs; repeat match goal with K : tk_type ?t <> TOKEN_BOOM |- context [String.eqb (tk_type ?t) TOKEN_BOOM] => rewrite (proj2 (String.eqb_neq _ _) K) end; reflexivity. }
  rewrite B. apply (written_loop d srt l []); auto.
  clear. induction l as [|s l IH]; [cbn; lia|]. cbn [flat_map List.length] in *. rewrite app_length. pose proof (written_pos d s). lia.
Qed.
Lemma written_lex : forall d l, forallb (written_ok d) l = true -> lex d (written_text d l) = flat_map (written_toks d) l.
Proof. intros d l H. apply TT_lex, FF_TT, written_FF, H. Qed.
