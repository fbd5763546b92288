(** Reading printed columns and constraints (for C08). *)
From Coq Require Import Lia.
From Verif Require Import GoStr Token Lexer LexerFacts LexSpec LexLayout LexKeyword LexPanic Ast Parser Printable PrintLex PrintToks PrintParse.
Local Open Scope list_scope.

(** What follows an item of a table. *)
Definition item_stop (t : tokentype) : bool := isin t [TOKEN_COMMA; TOKEN_CLOSE_PAREN].
Lemma item_stop_cases : forall rest, item_stop (curT rest) = true -> exists t r, rest = t :: r /\ (tk_type t = TOKEN_COMMA \/ tk_type t = TOKEN_CLOSE_PAREN).
Proof.
  intros rest H. destruct rest as [|t r]; [discriminate H|]. exists t, r. split; [reflexivity|]. apply isin_in in H. unfold curT in H. cbn [cur In] in H.
  destruct H as [H|[H|[]]]; auto.
Qed.

(** * Attributes of a column *)

Definition reads (d : dialect) (c : column) (toks : list token) (c' : column) (rest : list token) : Prop :=
  forall fuel, List.length (toks ++ rest) < fuel -> nb (toks ++ rest) -> exists f, List.length rest < f /\ parseAttrs_loop d fuel c (toks ++ rest) = parseAttrs_loop d f c' rest.
Lemma reads_nil : forall d c rest, reads d c [] c rest.
Proof. intros d c rest fuel H _. exists fuel. split; [exact H|reflexivity]. Qed.
Lemma reads_app : forall d c a c1 b c2 rest, reads d c a c1 (b ++ rest) -> reads d c1 b c2 rest -> reads d c (a ++ b) c2 rest.
Proof.
  intros d c a c1 b c2 rest H1 H2 fuel Hf Hnb. rewrite <- app_assoc in *. destruct (H1 fuel Hf Hnb) as [f [F1 F2]].
  destruct (H2 f F1 (nb_app_r _ _ Hnb)) as [g [G1 G2]]. exists g. split; [exact G1|]. rewrite F2. exact G2.
Qed.
Ltac reads_start := intros fuel Hf Hnb; destruct fuel as [|fuel]; [lia|]; exists fuel; cbn [List.app List.length] in *; (split; [lens|]); cbn [parseAttrs_loop].

Lemma reads_notnull : forall d c rest, reads d c [W d "NOT"; W d "NULL"] (set_notnull c true) rest.
Proof. intros d c rest. reads_start. destruct d; run; reflexivity. Qed.
Lemma reads_null : forall d c rest, reads d c [W d "NULL"] (set_notnull c false) rest.
Proof. intros d c rest. reads_start. destruct d; run; reflexivity. Qed.
Lemma reads_notvisible : forall c rest, reads Crdb c [W Crdb "NOT"; W Crdb "VISIBLE"] (set_notvisible c) rest.
Proof. intros c rest. reads_start. run; reflexivity. Qed.
Lemma reads_default : forall d c l rest, value_ok d l = true -> default_stop d (curT rest) = true ->
  reads d c (default_toks d (Some (Some l))) (set_default c (Some (Some l))) rest.
Proof.
  intros d c l rest Hv Hs. cbn [default_toks]. reads_start.
  assert (K : forall X : res (column * ps), (let! (v, p2) := parseColumnDefault d (piece_toks d l ++ rest) in parseAttrs_loop d fuel (set_default c (Some v)) p2) = parseAttrs_loop d fuel (set_default c (Some (Some l))) rest).
  { intros _. rewrite value_run; [reflexivity|exact Hv|nbs|exact Hs]. }
  destruct d; run; apply (K Err).
Qed.
Lemma reads_as : forall c a rest, as_ok Crdb a = true -> item_stop (curT rest) = true -> reads Crdb c (as_toks Crdb a) (set_as c a) rest.
Proof.
  intros c a rest Ha Hs. 
  assert (E : as_toks Crdb a = W Crdb "AS" :: tl (as_toks Crdb a)).
  { unfold as_ok in Ha. apply andb_true_iff in Ha. destruct Ha as [Ha _]. unfold as_toks. destruct (as_value a); [reflexivity|discriminate Ha]. }
  intros fuel Hf Hnb. pose proof (as_run a rest Ha Hnb Hs) as R. rewrite E in *. cbn [tl] in R. set (k := tl (as_toks Crdb a)) in *. revert fuel Hf Hnb.
  reads_start. run. rewrite R. reflexivity.
Qed.
Lemma reads_charset : forall c i rest, wellformed_ident My i = true ->
  reads My c ([W My "CHARACTER"; W My "SET"] ++ [text_tok My (id_raw i)]) (set_charset c i) rest.
Proof.
  intros c i rest Hw. apply wellformed_new in Hw. reads_start. run. unfold text_tok. destruct (is_word (id_raw i)); run; rewrite Hw; reflexivity.
Qed.
Lemma reads_collate : forall c i rest, wellformed_ident My i = true ->
  reads My c ([W My "COLLATE"] ++ [text_tok My (id_raw i)]) (set_collate c i) rest.
Proof.
  intros c i rest Hw. apply wellformed_new in Hw. reads_start. run. unfold text_tok. destruct (is_word (id_raw i)); run; rewrite Hw; reflexivity.
Qed.
Lemma reads_autoinc : forall c rest, reads My c [W My "AUTO_INCREMENT"] (set_autoinc c) rest.
Proof. intros c rest. reads_start. run; reflexivity. Qed.
Lemma reads_onaction : forall c s rest, onaction_ok My s = true -> reads My c (onaction_toks My s) (set_onaction c s) rest.
Proof.
  intros c s rest H. unfold onaction_ok in H. unfold onaction_toks. destruct (split " " s) as [|o [|u [|v [|]]]]; try discriminate H.
  apply andb_true_iff in H. destruct H as [H H6]. apply andb_true_iff in H. destruct H as [H H5]. apply andb_true_iff in H. destruct H as [H _].
  apply andb_true_iff in H. destruct H as [H _]. apply andb_true_iff in H. destruct H as [H1 H2]. apply String.eqb_eq in H1, H2. subst o. rewrite H2.
  change (means_one_of My u [TOKEN_UPDATE; TOKEN_DELETE]) with (isin (lookupIdent My u) [TOKEN_UPDATE; TOKEN_DELETE]) in H5.
  change (means_one_of My v [TOKEN_CASCADE; TOKEN_RESTRICT; TOKEN_CURRENT_TIMESTAMP]) with (isin (lookupIdent My v) [TOKEN_CASCADE; TOKEN_RESTRICT; TOKEN_CURRENT_TIMESTAMP]) in H6.
  reads_start. run. rewrite H5. run. rewrite H6. run. reflexivity.
Qed.
Lemma attrs_end : forall d c rest fuel, isin (curT rest) [TOKEN_COMMA; TOKEN_CLOSE_PAREN; TOKEN_COMMENT; TOKEN_OPTIONS] = true -> List.length rest < fuel ->
  parseAttrs_loop d fuel c rest = Ok (c, rest).
Proof.
  intros d c rest fuel H Hf. destruct fuel as [|fuel]; [lia|]. cbn [parseAttrs_loop]. apply isin_in in H. cbn [In] in H.
  destruct H as [H|[H|[H|[H|[]]]]]; rewrite <- H; destruct d; run; reflexivity.
Qed.

(** The attributes read by [parseAttrs_loop], and what is read after the constraints. *)
Definition early_toks (d : dialect) (c : column) : list token :=
  match d with
  | Pg => default_toks d (c_default c) ++ notnull_toks d (c_notnull c)
  | Crdb => (if c_notvisible c then [W d "NOT"; W d "VISIBLE"] else []) ++ notnull_toks d (c_notnull c)
            ++ default_toks d (c_default c) ++ match c_as c with Some a => as_toks d a | None => [] end
  | My => oident_toks d [W d "CHARACTER"; W d "SET"] (c_charset c) ++ oident_toks d [W d "COLLATE"] (c_collate c)
          ++ (if c_notnull c then [W d "NOT"; W d "NULL"] else [W d "NULL"]) ++ default_toks d (c_default c)
          ++ (if c_autoinc c then [W d "AUTO_INCREMENT"] else []) ++ onaction_toks d (c_onaction c)
  | Sp => notnull_toks d (c_notnull c) ++ default_toks d (c_default c)
  end.
Definition late_toks (d : dialect) (c : column) : list token :=
  match d with
  | My => if eqs (c_comment c) "" then [] else [W d "COMMENT"; text_tok d (c_comment c)]
  | Sp => match c_options c with Some l => W d "OPTIONS" :: piece_toks d l | None => [] end
  | _ => []
  end.
Definition late_off (c : column) : column := set_options (set_comment c "") None.
Lemma attr_split : forall d c, attr_toks d c = early_toks d c ++ late_toks d c.
Proof. intros d c. unfold attr_toks, early_toks, late_toks. destruct d; rewrite ?app_nil_r, <- ?app_assoc; reflexivity. Qed.

Definition late_stop (t : tokentype) : bool := isin t [TOKEN_COMMA; TOKEN_CLOSE_PAREN; TOKEN_COMMENT; TOKEN_OPTIONS].
Lemma late_first : forall d c rest, item_stop (curT rest) = true -> late_stop (curT (late_toks d c ++ rest)) = true.
Proof.
  intros d c rest H. destruct (item_stop_cases rest H) as [t [r [E T]]]. subst rest.
  assert (K : late_stop (curT (t :: r)) = true) by (unfold curT; cbn [cur]; destruct T as [T|T]; rewrite T; reflexivity).
  unfold late_toks. destruct d; try exact K.
  - destruct (eqs (c_comment c) ""); [exact K|reflexivity].
  - destruct (c_options c); [reflexivity|exact K].
Qed.
Lemma reads_option_default : forall d c v rest, default_ok d v = true -> default_stop d (curT rest) = true \/ v = None -> c_default c = None ->
  reads d c (default_toks d v) (set_default c v) rest.
Proof.
  intros d c v rest H Hs Hc. destruct v as [[l|]|]; [|discriminate H|].
  - destruct Hs as [Hs|Hs]; [|discriminate Hs]. apply reads_default; assumption.
  - destruct c. cbn in Hc. subst. apply reads_nil.
Qed.
Lemma reads_option_notnull : forall d c (b : bool) rest, c_notnull c = false -> reads d c (notnull_toks d b) (set_notnull c b) rest.
Proof. intros d c b rest H. destruct b; [apply reads_notnull|]. destruct c. cbn in H. subst. apply reads_nil. Qed.

Lemma early_reads : forall d c rest, column_ok d c = true -> item_stop (curT rest) = true ->
  reads d (column0 (c_name c) (c_type c)) (early_toks d c) (late_off c) (late_toks d c ++ rest).
Proof.
  intros d c rest H Hs. unfold column_ok in H. apply andb_true_iff in H. destruct H as [H H6]. apply andb_true_iff in H. destruct H as [H H5].
  apply andb_true_iff in H. destruct H as [H H4]. apply andb_true_iff in H. destruct H as [H H3]. clear H.
  destruct (item_stop_cases rest Hs) as [t [r [Er T]]].
  assert (Ds : forall d, default_stop d (curT rest) = true) by (intro d'; subst rest; unfold curT; cbn [cur]; destruct d'; destruct T as [T|T]; rewrite T; reflexivity).
  destruct c as [n ty df nn nv asv cs co ai oa cm op]. cbn [c_name c_type c_default c_notnull c_notvisible c_as c_charset c_collate c_autoinc c_onaction c_comment c_options] in *.
  destruct d; unfold early_toks, late_toks, late_off; cbn [c_name c_type c_default c_notnull c_notvisible c_as c_charset c_collate c_autoinc c_onaction c_comment c_options] in *.
  - repeat (apply andb_true_iff in H5; let K := fresh "K" in destruct H5 as [H5 K]). apply andb_true_iff in H4. destruct H4 as [H4 H4'].
    destruct cs; [discriminate H5|]. destruct co; [discriminate K2|]. destruct asv; [discriminate H4'|]. apply negb_true_iff in H4, K1. apply String.eqb_eq in K, K0. subst.
    cbn [List.app]. eapply reads_app; [apply (reads_option_default Pg _ df); [exact H3|left|reflexivity]|].
    + destruct nn; cbn [notnull_toks List.app]; [reflexivity|apply Ds].
    + apply (reads_option_notnull Pg (set_default (column0 n ty) df) nn). reflexivity.
  - repeat (apply andb_true_iff in H5; let K := fresh "K" in destruct H5 as [H5 K]).
    destruct cs; [discriminate H5|]. destruct co; [discriminate K2|]. apply negb_true_iff in K1. apply String.eqb_eq in K, K0. subst. cbn [List.app].
    eapply reads_app; [instantiate (1 := if nv then set_notvisible (column0 n ty) else column0 n ty); destruct nv; [apply reads_notvisible|apply reads_nil]|].
    eapply reads_app; [apply (reads_option_notnull Crdb _ nn); destruct nv; reflexivity|].
    eapply reads_app; [apply (reads_option_default Crdb _ df); [exact H3| |destruct nv; reflexivity]|].
    + destruct asv as [a|]; [right; apply andb_true_iff in H4; destruct H4 as [_ H4]; destruct df; [discriminate H4|reflexivity]|left; apply Ds].
    + destruct asv as [a|]; [|destruct nv; apply reads_nil]. apply andb_true_iff in H4. destruct H4 as [H4 _].
      destruct nv; [exact (reads_as (set_default (set_notnull (set_notvisible (column0 n ty)) nn) df) a _ H4 Hs)|exact (reads_as (set_default (set_notnull (column0 n ty) nn) df) a _ H4 Hs)].
  - repeat (apply andb_true_iff in H5; let K := fresh "K" in destruct H5 as [H5 K]). apply andb_true_iff in H4. destruct H4 as [H4 H4'].
    destruct asv; [discriminate H4'|]. apply negb_true_iff in H4. subst nv. destruct op; [discriminate H6|].
    rename H5 into A. rename K2 into B. rename K1 into C. rename K0 into D. rename K into E.
    eapply reads_app; [instantiate (1 := match cs with Some i => set_charset (column0 n ty) i | None => column0 n ty end);
                       destruct cs as [i|]; [apply andb_true_iff in A; destruct A as [A _]; apply reads_charset, A|apply reads_nil]|].
    eapply reads_app; [instantiate (1 := mkCol n ty None false false None cs co false "" "" None);
                       destruct co as [i|]; [apply andb_true_iff in B; destruct B as [B _]; destruct cs as [i0|]; [apply (reads_collate (set_charset (column0 n ty) i0) i _ B)|apply (reads_collate (column0 n ty) i _ B)]|destruct cs; apply reads_nil]|].
    eapply reads_app; [instantiate (1 := mkCol n ty None nn false None cs co false "" "" None);
                       destruct nn; [apply (reads_notnull My (mkCol n ty None false false None cs co false "" "" None))|apply (reads_null My (mkCol n ty None false false None cs co false "" "" None))]|].
    eapply reads_app; [apply (reads_option_default My _ df); [exact H3| |reflexivity]|].
    + destruct ai; [right; destruct df; [discriminate C|reflexivity]|]. left. cbn [List.app].
      apply orb_true_iff in D. destruct D as [D|D].
      * apply String.eqb_eq in D. subst oa. cbn [onaction_toks split List.app]. destruct (eqs cm ""); [apply Ds|reflexivity].
      * unfold onaction_ok in D. unfold onaction_toks. destruct (split " " oa) as [|o [|u [|v [|]]]]; try discriminate D.
        repeat (apply andb_true_iff in D; destruct D as [D _]). apply String.eqb_eq in D. subst o. reflexivity.
    + eapply reads_app; [instantiate (1 := mkCol n ty df nn false None cs co ai "" "" None);
                         destruct ai; [apply (reads_autoinc (mkCol n ty df nn false None cs co false "" "" None))|apply reads_nil]|].
      apply orb_true_iff in D. destruct D as [D|D].
      * apply String.eqb_eq in D. subst oa. apply reads_nil.
      * apply (reads_onaction (mkCol n ty df nn false None cs co ai "" "" None) oa _ D).
  - repeat (apply andb_true_iff in H5; let K := fresh "K" in destruct H5 as [H5 K]). apply andb_true_iff in H4. destruct H4 as [H4 H4'].
    destruct cs; [discriminate H5|]. destruct co; [discriminate K2|]. destruct asv; [discriminate H4'|]. apply negb_true_iff in H4, K1. apply String.eqb_eq in K, K0. subst.
    eapply reads_app; [apply (reads_option_notnull Sp _ nn); reflexivity|].
    apply (reads_option_default Sp (set_notnull (column0 n ty) nn) df); [exact H3| |reflexivity].
    destruct op as [l|]; [right; apply andb_true_iff in H6; destruct H6 as [_ H6]; destruct df; [discriminate H6|reflexivity]|left; apply Ds].
Qed.

Lemma constraints_none : forall d srt tbl col rest, isin (curT rest) ([TOKEN_COMMA; TOKEN_CLOSE_PAREN] ++ match d with My => [TOKEN_COMMENT] | Sp => [TOKEN_OPTIONS] | _ => [] end) = true ->
  parseColumnConstraints d srt tbl col rest = Ok ([], rest).
Proof.
  intros d srt tbl col rest H. unfold parseColumnConstraints. generalize (List.length rest). intro fuel. apply isin_in in H. cbn [parseColumnConstraints_loop].
  destruct d; cbn [List.app In] in H; repeat (destruct H as [H|H]; [rewrite <- H; run; reflexivity|]); destruct H.
Qed.

Lemma early_first : forall d c r, column_ok d c = true -> negb (isin (curT r) [TOKEN_WITH; TOKEN_PRECISION; TOKEN_OPEN_PAREN]) = true ->
  negb (isin (curT (early_toks d c ++ r)) [TOKEN_WITH; TOKEN_PRECISION; TOKEN_OPEN_PAREN]) = true.
Proof.
  intros d c r H Hr. unfold column_ok in H. apply andb_true_iff in H. destruct H as [H _]. apply andb_true_iff in H. destruct H as [H _].
  apply andb_true_iff in H. destruct H as [H H4]. apply andb_true_iff in H. destruct H as [H H3]. clear H.
  destruct c as [n ty df nn nv asv cs co ai oa cm op]. cbn [c_default c_as] in *.
  assert (A : d = Crdb -> forall a r, asv = Some a -> exists k, as_toks d a ++ r = W d "AS" :: k).
  { intros Hd a r' Ea. subst d asv. apply andb_true_iff in H4. destruct H4 as [H4 _]. unfold as_ok in H4. apply andb_true_iff in H4. destruct H4 as [H4 _].
    unfold as_toks. destruct (as_value a); [eexists; reflexivity|discriminate H4]. }
  destruct d; unfold early_toks; cbn [c_name c_type c_default c_notnull c_notvisible c_as c_charset c_collate c_autoinc c_onaction c_comment c_options] in *;
    rewrite <- ?app_assoc.
  - destruct df as [[l|]|]; [reflexivity|discriminate H3|]. destruct nn; [reflexivity|exact Hr].
  - destruct nv; [reflexivity|]. destruct nn; [reflexivity|]. destruct df as [[l|]|]; [reflexivity|discriminate H3|]. cbn [default_toks notnull_toks List.app].
    destruct asv as [a|]; [|exact Hr]. destruct (A eq_refl a r eq_refl) as [k Ek]. rewrite Ek. reflexivity.
  - destruct cs; [reflexivity|]. destruct co; [reflexivity|]. destruct nn; reflexivity.
  - destruct nn; [reflexivity|]. destruct df as [[l|]|]; [reflexivity|discriminate H3|]. exact Hr.
Qed.

Lemma column_run : forall d srt tbl c rest, column_ok d c = true -> nb (column_toks d c ++ rest) -> item_stop (curT rest) = true ->
  parseColumn d srt tbl (column_toks d c ++ rest) = Ok (c, [], rest).
Proof.
  intros d srt tbl c rest H Hnb Hs. pose proof (early_reads d c rest H Hs) as R. pose proof (late_first d c rest Hs) as Lf.
  unfold column_toks in *. rewrite attr_split in *. cbn [List.app] in *. rewrite <- !app_assoc in *.
  assert (Hn : name_ok d (c_name c) = true) by (unfold column_ok in H; repeat (apply andb_true_iff in H; destruct H as [H _]); exact H).
  assert (Ht : datatype_ok d (c_type c) = true).
  { unfold column_ok in H. do 4 (apply andb_true_iff in H; destruct H as [H _]). apply andb_true_iff in H. apply H. }
  assert (Fs : negb (isin (curT (early_toks d c ++ late_toks d c ++ rest)) [TOKEN_WITH; TOKEN_PRECISION; TOKEN_OPEN_PAREN]) = true).
  { apply early_first; [exact H|]. unfold late_stop in Lf. apply isin_in in Lf. cbn [In] in Lf. destruct Lf as [L|[L|[L|[L|[]]]]]; rewrite <- L; reflexivity. }
  pose proof (nb_tl _ _ Hnb) as Hnb1.
  destruct (datatype_run d (c_type c) _ Ht Hnb1 Fs) as [x [E1 E2]].
  unfold parseColumn. unfold curT at 1, curL. cbn [cur tI tk_type tk_lit]. test1. cbn [guard bind]. rewrite next_ok by exact Hnb1. cbn [bind].
  rewrite E2, E1. cbn [bind]. assert (Hnb2 : nb (early_toks d c ++ late_toks d c ++ rest)) by (apply nb_app_r in Hnb1; exact Hnb1).
  rewrite next_ok by exact Hnb2. cbn [bind]. rewrite (name_new d _ Hn).
  destruct (R (S (List.length (early_toks d c ++ late_toks d c ++ rest))) ltac:(lia) Hnb2) as [f [F1 F2]]. rewrite F2.
  rewrite attrs_end; [|exact Lf|exact F1]. cbn [bind]. apply nb_app_r in Hnb2. clear F1 F2 R E1 E2 Fs Hnb Hnb1.
  assert (Cn : parseColumnConstraints d srt tbl (c_name c) (late_toks d c ++ rest) = Ok ([], late_toks d c ++ rest)).
  { apply constraints_none. destruct (item_stop_cases rest Hs) as [t [r [E T]]]. subst rest. unfold late_toks.
    destruct d; [| |destruct (eqs (c_comment c) "")|destruct (c_options c)]; cbn [List.app]; unfold curT; cbn [cur]; try reflexivity; destruct T as [T|T]; rewrite T; reflexivity. }
  rewrite Cn. cbn [bind append_constraints].
  unfold column_ok in H. apply andb_true_iff in H. destruct H as [H H6]. apply andb_true_iff in H. destruct H as [H H5]. clear H Cn Lf Hn Ht.
  destruct (item_stop_cases rest Hs) as [t [r [E T]]]. subst rest.
  destruct c as [n ty df nn nv asv cs co ai oa cm op]. unfold late_toks, late_off in *. cbn [c_name c_type c_default c_notnull c_notvisible c_as c_charset c_collate c_autoinc c_onaction c_comment c_options set_comment set_options] in *.
  destruct d.
  - destruct op; [discriminate H6|]. apply andb_true_iff in H5. destruct H5 as [_ H5]. apply String.eqb_eq in H5. subst cm. reflexivity.
  - destruct op; [discriminate H6|]. apply andb_true_iff in H5. destruct H5 as [_ H5]. apply String.eqb_eq in H5. subst cm. reflexivity.
  - destruct op; [discriminate H6|]. destruct (eqs cm "") eqn:Ec.
    + apply String.eqb_eq in Ec. subst cm. see. destruct T as [T|T]; rewrite T; run; reflexivity.
    + cbn [List.app] in *. run. unfold text_tok. destruct (is_word cm); reflexivity.
  - apply andb_true_iff in H5. destruct H5 as [_ H5]. apply String.eqb_eq in H5. subst cm. destruct op as [l|].
    + cbn [List.app] in *. apply andb_true_iff in H6. destruct H6 as [H6 _]. run. rewrite group_run; [reflexivity|exact H6|nbs].
    + see. destruct T as [T|T]; rewrite T; run; reflexivity.
Qed.
