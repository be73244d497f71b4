(** Attributes with a form of their own are read back. *)
From Verif Require Import Py PyFacts PyRe PyReFacts Data Oracles Basics BasicsSpec BasicsFacts ActorFacts Json Construct JsonConv JsonParse JsonSpec
  JsonRound TvWriter TvLexer TvSpec TvTokSpec TvLexFacts TvLexValues TvParser TvParseFacts TvFieldFacts TvElemFacts.

(** ** Regular expressions *)
Lemma pm_pexact n p a r g k : List.length a = n -> forallb p a = true -> pm (pexact n p) (a ++ r) g k = k r g.
Proof.
  revert n. induction a as [|c a IH]; intros n <- H; cbn [List.length pexact pm app]; auto.
  cbn [forallb] in H. apply andb_true_iff in H as [H1 H2]. rewrite H1. apply IH; auto.
Qed.
Lemma pm_pexact_short n p s g k : List.length s < n -> pm (pexact n p) s g k = None.
Proof.
  revert n. induction s as [|c s IH]; intros [|n] H; cbn [List.length pexact pm] in *; try lia; auto.
  destruct (p c); auto. apply IH. lia.
Qed.
Lemma hex_lex c : hex c = true -> lex_hex c = true.
Proof. intro H. exact H. Qed.
Lemma hex_lexs h : Hex h -> forallb lex_hex h = true.
Proof. intros [_ H]. exact H. Qed.

Lemma verif_plain h : List.length h = 40 -> forallb lex_hex h = true -> re_match verif_code_re h = Some [(1, h)].
Proof.
  intros Hl Hh. unfold re_match, verif_code_re. rewrite pcats_cons, pm_pcat. cbn [pm].
  replace (pm (pexact 40 lex_hex) h) with (pm (pexact 40 lex_hex) (h ++ [])) by (rewrite app_nil_r; reflexivity).
  rewrite pm_pexact by auto. rewrite pcats_cons, pm_pcat. cbn [pm star_bt pcats]. unfold popt. cbn [pm].
  rewrite pm_plit. cbn [startswith lit map list_ascii_of_string].
  cbn [List.length]. rewrite Nat.sub_0_r, firstn_all. reflexivity.
Qed.
Lemma verif_excluded h c t : List.length h = 40 -> forallb lex_hex h = true -> is_space c = false -> ~ In LF (c :: t) ->
  re_match verif_code_re (h ++ $" (excludes: " ++ (c :: t) ++ $")") = Some [(2, $"(excludes: " ++ (c :: t) ++ $")"); (3, c :: t); (1, h)].
Proof.
  intros Hl Hh Hc Hn. unfold re_match, verif_code_re. rewrite pcats_cons, pm_pcat. cbn [pm].
  rewrite pm_pexact by auto. rewrite firstn_len_app. rewrite pcats_cons, pm_pcat. cbn [pm].
  rewrite star_bt_greedy with (r := ([], [(2, $"(excludes: " ++ (c :: t) ++ $")"); (3, c :: t); (1, h)])); [reflexivity|].
  change (dropwhile is_space ($" (excludes: " ++ (c :: t) ++ $")")) with ($"(excludes: " ++ (c :: t) ++ $")").
  cbn [pcats]. unfold popt. cbn [pm].
  change ($"(excludes: " ++ (c :: t) ++ $")") with ($"(excludes:" ++ #" " :: c :: t ++ $")").
  rewrite pm_plit, startswith_app, skipn_len_app.
  rewrite star_bt_greedy with (r := ([], [(2, $"(excludes: " ++ (c :: t) ++ $")"); (3, c :: t); (1, h)])); [reflexivity|].
  assert (E : dropwhile is_space (#" " :: c :: t ++ $")") = c :: t ++ $")").
  { change (dropwhile is_space (#" " :: c :: t ++ $")")) with (dropwhile is_space (c :: t ++ $")")). cbn [dropwhile]. rewrite Hc. reflexivity. }
  rewrite E. cbn [pm pplus].
  assert (A : forall x, In x (c :: t) -> any_char x = true).
  { intros x Hx. apply negb_true_iff, N.eqb_neq. intros ->. contradiction. }
  rewrite (A c) by (left; auto). 
  rewrite star_bt_longest with (a := t) (b := $")") (r := ([], [(2, $"(excludes: " ++ (c :: t) ++ $")"); (3, c :: t); (1, h)])); [reflexivity| | |].
  - apply forallb_forall. intros x Hx. apply A. right. auto.
  - rewrite pm_plit. change (startswith $")" $")") with true. cbv iota. change (skipn (List.length $")") $")") with (@nil char).
    assert (F1 : firstn (List.length (c :: t ++ $")") - List.length $")") (c :: t ++ $")") = c :: t) by apply (firstn_len_app (c :: t)).
    rewrite F1. change (List.length (@nil char)) with 0. rewrite Nat.sub_0_r, firstn_all. reflexivity.
  - intros a' b' Es _ Hlt. rewrite pm_plit. destruct (startswith $")" b') eqn:F; auto. exfalso.
    apply startswith_spec in F as (r & ->). apply (f_equal (@List.length _)) in Es. rewrite !app_length in Es. cbn in Es. lia.
Qed.

Lemma star_bt_ex p k s : (exists r, k (dropwhile p s) = Some r) -> exists r, star_bt p k s = Some r.
Proof. intros (r & H). exists r. apply star_bt_greedy. exact H. Qed.
Lemma range_matched a b : a <> [] -> b <> [] -> forallb is_digit a = true -> forallb is_digit b = true ->
  exists g, re_match range_re (a ++ #":" :: b) = Some g.
Proof.
  intros Ha Hb Da Db. destruct a as [|c a]; [congruence|]. destruct b as [|x b]; [congruence|].
  cbn [forallb] in Da, Db. apply andb_true_iff in Da as [Dc Da]. apply andb_true_iff in Db as [Dx Db].
  unfold re_match, range_re. rewrite pcats_cons, pm_pcat. cbn [pm pplus app]. rewrite Dc.
  assert (E : forall s r, forallb is_digit s = true -> (r = [] \/ exists t, r = #":" :: t) -> dropwhile is_digit (s ++ r) = r).
  { clear. intros s r H Hr. induction s as [|c s IH]; cbn [app].
    - destruct Hr as [->|(t & ->)]; reflexivity.
    - cbn [forallb] in H. apply andb_true_iff in H as [H1 H2]. cbn [dropwhile]. rewrite H1. auto. }
  match goal with |- context [star_bt is_digit ?k ?s] => enough (K : exists r, star_bt is_digit k s = Some r) by (destruct K as ([z g] & ->); exists g; reflexivity) end.
  apply star_bt_ex. cbv beta.
  rewrite E by (auto; right; eexists; reflexivity). rewrite pcats_cons, pm_pcat, pm_plit.
  change (startswith $":" (#":" :: x :: b)) with true. cbv iota. change (skipn (List.length $":") (#":" :: x :: b)) with (x :: b).
  cbn [pcats pm pplus]. rewrite Dx.
  apply star_bt_ex. cbv beta. replace b with (b ++ []) by apply app_nil_r. rewrite E by auto. eexists. reflexivity.
Qed.

Lemma suffix_longer {A} (a b a' b' : list A) : a ++ b = a' ++ b' -> List.length a < List.length a' -> exists y z, a' = a ++ y :: z /\ b = y :: z ++ b'.
Proof.
  revert a'. induction a as [|x a IH]; intros [|x' a'] H L; cbn in *; try lia.
  - exists x', a'. auto.
  - injection H as -> H. apply IH in H as (y & z & -> & ->); [|lia]. exists y, z. auto.
Qed.
Lemma doc_ref_matched a h : List.length h = 40 -> forallb lex_hex h = true -> ~ In LF a ->
  re_match ext_doc_ref_re (a ++ $"SHA1: " ++ h) = Some [(2, $"SHA1: " ++ h); (1, a)].
Proof.
  intros Hl Hh Ha. unfold re_match, ext_doc_ref_re. rewrite pcats_cons, pm_pcat. cbn [pm].
  rewrite star_bt_longest with (a := a) (b := $"SHA1: " ++ h) (r := ([], [(2, $"SHA1: " ++ h); (1, a)])); [reflexivity| | |].
  - apply forallb_forall. intros x Hx. apply negb_true_iff, N.eqb_neq. intros ->. contradiction.
  - cbn [pcats pm]. rewrite firstn_len_app.
    apply star_bt_greedy. change (dropwhile is_space ($"SHA1: " ++ h)) with ($"SHA1:" ++ #" " :: h).
    rewrite pm_plit, startswith_app, skipn_len_app. apply star_bt_greedy.
    assert (E : dropwhile is_space (#" " :: h) = h).
    { change (dropwhile is_space (#" " :: h)) with (dropwhile is_space h). destruct h as [|c h]; auto.
      cbn [forallb] in Hh. apply andb_true_iff in Hh as [Hc _]. cbn [dropwhile]. rewrite hex_not_space; auto. }
    rewrite E. replace (pm (pexact 40 lex_hex) h) with (pm (pexact 40 lex_hex) (h ++ [])) by (rewrite app_nil_r; reflexivity).
    rewrite pm_pexact by auto. change (List.length (@nil char)) with 0. rewrite Nat.sub_0_r, firstn_all. reflexivity.
  - intros a' b' E _ L. destruct (suffix_longer _ _ _ _ E L) as (y & z & -> & E'). change ($"SHA1: " ++ h) with (#"S" :: $"HA1: " ++ h) in E'.
    apply (f_equal (@tl char)) in E'. cbn [tl] in E'.
    assert (F : forall u v, b' = u ++ v -> startswith $"SHA1:" v = false).
    { intros u v ->. destruct (startswith $"SHA1:" v) eqn:S; auto. exfalso. apply startswith_spec in S as (r & ->).
      assert (I : In #"S" ($"HA1: " ++ h)).
      { rewrite E'. apply in_or_app. right. apply in_or_app. right. apply in_or_app. left. left. reflexivity. }
      apply in_app_iff in I as [I|I]; [revert I; apply has_char_false; reflexivity|]. rewrite forallb_forall in Hh. apply Hh in I. discriminate. }
    cbn [pcats pm]. apply star_bt_none. intros u v Euv _. rewrite pm_plit, (F u v Euv). reflexivity.
Qed.

Lemma begins_like_In sh s x : begins_like sh s = true -> In x sh -> x <> #"0" -> In x s.
Proof.
  revert s. induction sh as [|y sh IH]; intros [|c s] H K Hx; try discriminate; try (destruct K; fail). cbn [begins_like] in H.
  apply andb_true_iff in H as [H1 H2]. destruct K as [->|K].
  - destruct (N.eqb_spec x #"0"); [congruence|]. apply N.eqb_eq in H1. left. auto.
  - right. apply IH; auto.
Qed.
Lemma digit_head_special c s : hex c = true -> ~ In #"-" (c :: s) -> special (c :: s) = false.
Proof.
  intros H0 Hd. pose proof hex_head_words as W. rewrite forallb_forall in W.
  unfold special. apply orb_false_iff. split; [apply orb_false_iff; split|].
  - apply str_in_false. intro K. specialize (W _ (in_or_app _ _ _ (or_introl K))). cbn in W. rewrite H0 in W. discriminate.
  - destruct (existsb _ special_prefixes) eqn:E; auto. apply existsb_exists in E as (p & Hp & E).
    specialize (W _ (in_or_app _ _ _ (or_intror Hp))). destruct p as [|x p]; [discriminate|]. cbn in E, W.
    apply andb_true_iff in E as [E _]. apply N.eqb_eq in E. subst x. rewrite H0 in W. discriminate.
  - destruct (begins_like stamp_shape (c :: s)) eqn:E; auto. exfalso. apply Hd. eapply begins_like_In; [exact E| |discriminate].
    apply has_char_In. reflexivity.
Qed.
Lemma digit09_hex c : is_digit09 c = true -> hex c = true.
Proof. unfold is_digit09, hex. intros ->. reflexivity. Qed.
Lemma digit09_digit c : is_digit09 c = true -> is_digit c = true.
Proof. unfold is_digit, digit_val. intros ->. reflexivity. Qed.
Lemma forallb_imp {A} (p q : A -> bool) l : (forall x, p x = true -> q x = true) -> forallb p l = true -> forallb q l = true.
Proof. intros H K. rewrite forallb_forall in *. auto. Qed.
Lemma numbers_line sep a b : sep = #":" \/ sep = #"." -> Line (str_of_N a ++ sep :: str_of_N b).
Proof.
  intro Hsep.
  pose proof (str_of_N_digits a) as Da. pose proof (str_of_N_digits b) as Db. pose proof (str_of_N_nonempty a) as Na. pose proof (str_of_N_nonempty b) as Nb.
  assert (F : forall x, x <> sep -> is_digit09 x = false -> ~ In x (str_of_N a ++ sep :: str_of_N b)).
  { intros x Hx Hd K. apply in_app_iff in K as [K|[K|K]]; auto.
    - rewrite forallb_forall in Da. apply Da in K. congruence.
    - rewrite forallb_forall in Db. apply Db in K. congruence. }
  split; [apply F; [destruct Hsep as [->| ->]; discriminate|reflexivity]|]. split; [apply F; [destruct Hsep as [->| ->]; discriminate|reflexivity]|]. split.
  - apply strip_id. split.
    + destruct (str_of_N a) as [|c s]; [congruence|]. intros c' s' E. injection E as <- _. cbn [forallb] in Da. apply andb_true_iff in Da as [Dc _].
      apply hex_not_space, digit09_hex. exact Dc.
    + intros c s' E. destruct (exists_last Nb) as (s & x & Ex). rewrite Ex in E, Db. rewrite app_comm_cons, app_assoc in E. apply app_inj_tail in E as [_ <-].
      rewrite forallb_app in Db. apply andb_true_iff in Db as [_ Db]. cbn in Db. rewrite andb_true_r in Db.
      apply hex_not_space, digit09_hex. exact Db.
  - left. destruct (str_of_N a) as [|c s] eqn:Ea; [congruence|]. cbn [app]. apply digit_head_special.
    + cbn [forallb] in Da. apply andb_true_iff in Da as [Dc _]. apply digit09_hex. exact Dc.
    + apply F; [destruct Hsep as [->| ->]; discriminate|reflexivity].
Qed.

Lemma range_line a b : Line (str_of_N a ++ #":" :: str_of_N b).
Proof. apply numbers_line. auto. Qed.

Section WithOracles.
Variable O : oracles.
Notation Steps := (Steps O).
Section Fields.
Variables (b : built) (ci : tdict) (L : list (pystr * option tval)).

Definition verif_text := get_package_verification_code_string.
Lemma verif_reads v : TvVerif v -> Line (verif_text v)
  /\ exists g, re_match verif_code_re (verif_text v) = Some g /\ group_or_empty 1 g = vc_value v
     /\ match group 3 g with Some ((_ :: _) as x) => split_on #"," x | _ => [] end = vc_excluded v.
Proof.
  destruct v as [h ex]. unfold TvVerif, verif_text, get_package_verification_code_string. cbn [vc_value vc_excluded]. intros (Hh & Hl & He).
  destruct ex as [|x [|]]; [| |contradiction].
  - split.
    + destruct Hh as [Hn Hh]. assert (F : forall c, hex c = false -> ~ In c h).
      { intros c Hc K. rewrite forallb_forall in Hh. apply Hh in K. congruence. }
      split; [apply F; reflexivity|]. split; [apply F; reflexivity|]. split; [apply strip_id, hex_stripped; split; auto|].
      left. replace h with (h ++ []) by apply app_nil_r. apply hex_special; [split; auto|lia].
    + exists [(1, h)]. split; [apply verif_plain; auto; apply hex_lexs; auto|]. split; reflexivity.
  - destruct He as ((c & t & -> & Hc) & H1 & H2 & H3). cbn [join]. split.
    + destruct Hh as [Hn Hh]. assert (F : forall c, hex c = false -> ~ In c h).
      { intros y Hy K. rewrite forallb_forall in Hh. apply Hh in K. congruence. }
      assert (G : forall y, hex y = false -> ~ In y (c :: t) -> ~ In y $" (excludes: " -> ~ In y $")" -> ~ In y (h ++ $" (excludes: " ++ (c :: t) ++ $")")).
      { intros y K1 K2 K3 K4. rewrite !in_app_iff. intros [K|[K|[K|K]]]; auto. revert K. apply F; auto. }
      split; [apply G; auto; apply has_char_false; reflexivity|]. split; [apply G; auto; apply has_char_false; reflexivity|]. split.
      * apply strip_id. destruct (hex_stripped h) as [S _]; [split; auto|]. split.
        -- intros y s' E. destruct h as [|z h]; [congruence|]. injection E as <- _. eapply S; eauto.
        -- intros y s' E. rewrite !app_assoc in E. change $")" with [#")"] in E. apply app_inj_tail in E as [_ <-]. reflexivity.
      * left. apply hex_special; [split; auto|lia].
    + eexists. split; [apply verif_excluded; auto; apply hex_lexs; auto|]. split; [reflexivity|]. change (split_on #"," (c :: t) = [c :: t]). apply split_on_nochar. exact H3.
Qed.
Lemma f_verif o : IfSome TvVerif o -> str_in $"verification_code" (map fst L) = false ->
  Steps (write_opt $"PackageVerificationCode" (option_map get_package_verification_code_string o)) (est b ci C_Package L)
    (est b ci C_Package (L ++ [($"verification_code", option_map VVerif o)])).
Proof.
  intros H Hn. rewrite write_opt_eq. apply (optional O TvVerif); auto. intros v Hv. destruct (verif_reads v Hv) as (Hl & g & G1 & G2 & G3).
  apply (Steps_field O T_PackageVerificationCode K_line (verif_text v) (line_tok (verif_text v))); auto using ValTok_line, line_CR.
  intro line. cbn [act]. unfold verification_code. rewrite in_class_est. cbn [ps_cur est line_tok tk_value]. rewrite table_fresh by exact Hn.
  rewrite G1, G2. rewrite G3. rewrite with_cur_est by exact Hn. destruct v; reflexivity.
Qed.
Lemma f_files_analyzed (x : bool) : str_in $"files_analyzed" (map fst L) = false ->
  Steps (write_value $"FilesAnalyzed" (if x then $"true" else $"false")) (est b ci C_Package L)
    (est b ci C_Package (L ++ [($"files_analyzed", Some (VBool x))])).
Proof.
  intro Hn. assert (Hl : Line (if x then $"true" else $"false")).
  { destruct x; (split; [apply has_char_false; reflexivity|]; split; [apply has_char_false; reflexivity|]; split; [reflexivity|left; reflexivity]). }
  apply (Steps_field O T_FilesAnalyzed K_line _ (line_tok (if x then $"true" else $"false"))); auto using ValTok_line, line_CR.
  intro line. cbn [act]. unfold files_analyzed. rewrite in_class_est. cbn [ps_cur est line_tok tk_value]. rewrite table_fresh by exact Hn.
  destruct x.
  - change (str_eqb $"true" $"true") with true. cbv iota. rewrite with_cur_est by exact Hn. reflexivity.
  - change (str_eqb $"false" $"true") with false. change (str_eqb $"false" $"false") with true. cbv iota. rewrite with_cur_est by exact Hn. reflexivity.
Qed.
Lemma f_purpose o : str_in $"primary_package_purpose" (map fst L) = false ->
  Steps (write_opt $"PrimaryPackagePurpose" (option_map (fun x => transform_enum_name_to_tv (purpose_name x)) o)) (est b ci C_Package L)
    (est b ci C_Package (L ++ [($"primary_package_purpose", option_map VPurpose o)])).
Proof.
  intro Hn. rewrite write_opt_eq. apply (optional O (fun _ => True)); [destruct o; exact I|]. intros x _.
  assert (Hl : Line (transform_enum_name_to_tv (purpose_name x))).
  { destruct x; (split; [apply has_char_false; reflexivity|]; split; [apply has_char_false; reflexivity|]; split; [reflexivity|left; reflexivity]). }
  apply (f_set O b ci C_Package L T_PrimaryPackagePurpose K_line _ (line_tok (transform_enum_name_to_tv (purpose_name x)))); auto using ValTok_line, line_CR; try reflexivity.
  intro line. eexists. cbn [act line_tok tk_value].
  assert (E : enum_value purpose_all purpose_name VPurpose (replace $"-" $"_" (transform_enum_name_to_tv (purpose_name x))) = Ok (VPurpose x))
    by (destruct x; vm_compute; reflexivity).
  rewrite E. reflexivity.
Qed.
Lemma f_types l : str_in $"file_types" (map fst L) = false ->
  Steps (write_each (fun t => write_value $"FileType" (file_type_name t)) l) (est b ci C_File L)
    (est b ci C_File (L ++ [($"file_types", entry VTypes l)])).
Proof.
  intro Hn. apply (each O (fun _ => True)); [apply Forall_forall; auto|]. intros x a _.
  assert (Hl : Line (file_type_name x)).
  { destruct x; (split; [apply has_char_false; reflexivity|]; split; [apply has_char_false; reflexivity|]; split; [reflexivity|left; reflexivity]). }
  apply (Steps_field O T_FileType K_line _ (line_tok (file_type_name x))); auto using ValTok_line, line_CR.
  intro line. cbn [act]. unfold file_type_action. rewrite in_class_est. cbn [line_tok tk_value].
  assert (E : enum_lookup file_type_all file_type_name (strip (file_type_name x)) = Some x) by (destruct x; vm_compute; reflexivity).
  rewrite E. apply append_entry; auto.
Qed.
Lemma unspaced_not_space a : Unspaced a -> ~ In #" " a.
Proof. intro H. apply (unspaced_no a #" " H). reflexivity. Qed.
Lemma split_three a m c : ~ In #" " a -> ~ In #" " m -> ~ In #" " c -> split_on #" " (join $" " [a; m; c]) = [a; m; c].
Proof. intros Ha Hm Hc. change $" " with [#" "]. apply split_join; [discriminate|]. auto. Qed.
(** three words *)
Lemma three_line a m c : solid a = true -> special a = false -> ~ In LF a -> ~ In CR a -> ~ In LF m -> ~ In CR m -> Unspaced c ->
  Line (join $" " [a; m; c]).
Proof.
  intros H1 H2 H3 H4 H5 H6 Hc. cbn [join]. 
  assert (F : forall x, is_space x = true -> x <> #" " -> ~ In x m -> ~ In x (m ++ $" " ++ c)).
  { intros x Hx Hs Hm. rewrite !in_app_iff. intros [K|[K|K]]; auto; [destruct K as [K|[]]; auto|]. revert K. apply unspaced_no; auto. }
  apply line_words; auto.
  - destruct m; [|discriminate]. cbn. discriminate.
  - apply F; auto; discriminate.
  - apply F; auto; discriminate.
  - intros x t E. destruct Hc as [Hn Hc]. destruct (exists_last Hn) as (c' & y & ->). rewrite !app_assoc in E. apply app_inj_tail in E as [_ <-].
    apply Hc. apply in_or_app. right. left. reflexivity.
Qed.
Definition cat_text (c : ref_category) : pystr := transform_enum_name_to_tv (ref_category_name c).
Lemma unspaced_word s : solid s = true -> forallb (fun c => negb (is_space c)) s = true -> Unspaced s.
Proof.
  intros H1 H2. split; [destruct s; [discriminate|discriminate]|]. intros c Hc. rewrite forallb_forall in H2. apply H2 in Hc. apply negb_true_iff. exact Hc.
Qed.
Lemma cat_unspaced c : Unspaced (cat_text c) /\ special (cat_text c) = false /\ enum_lookup ref_category_all ref_category_name (replace $"-" $"_" (cat_text c)) = Some c.
Proof. split; [apply unspaced_word; destruct c; reflexivity|]. split; destruct c; vm_compute; reflexivity. Qed.
Lemma unspaced_LF s : Unspaced s -> ~ In LF s.
Proof. intro H. apply (unspaced_no s LF H). reflexivity. Qed.
Lemma unspaced_CR s : Unspaced s -> ~ In CR s.
Proof. intro H. apply (unspaced_no s CR H). reflexivity. Qed.
Lemma f_ext_refs l : Forall TvExtRef l -> str_in $"external_references" (map fst L) = false ->
  Steps (write_each write_external_ref l) (est b ci C_Package L)
    (est b ci C_Package (L ++ [($"external_references", entry VExtRefs l)])).
Proof.
  intros Hl Hn. apply (each O TvExtRef); auto. intros x a [Ht Hlo Hc]. destruct (cat_unspaced (er_category x)) as (C1 & C2 & C3).
  assert (HL : Line (join $" " [cat_text (er_category x); er_type x; er_locator x])).
  { apply three_line; auto using unspaced_solid, unspaced_LF, unspaced_CR. }
  assert (A : forall line cm, cm = er_comment x -> pkg_external_ref line (join $" " [cat_text (er_category x); er_type x; er_locator x]) cm
    (est b ci C_Package (L ++ [($"external_references", entry VExtRefs a)])) = Ok (est b ci C_Package (L ++ [($"external_references", entry VExtRefs (a ++ [x]))]))).
  { intros line cm ->. unfold pkg_external_ref. rewrite in_class_est, split_three by auto using unspaced_not_space. rewrite C3.
    assert (X : {| er_category := er_category x; er_type := er_type x; er_locator := er_locator x; er_comment := er_comment x |} = x) by (destruct x; reflexivity).
    rewrite X. apply append_entry; auto. }
  unfold write_external_ref. destruct Hc as [Hc1 Hc2]. destruct (er_comment x) as [cm|] eqn:E in Hc1, Hc2 |- *.
  - assert (T : truthy_opt (Some cm) = true) by (destruct cm; [elim Hc2; reflexivity|reflexivity]). rewrite T. cbn [write_opt_text]. rewrite write_text_eq.
    apply (Steps_field_comment O T_ExternalRef T_ExternalRefComment K_line _ (line_tok (join $" " [cat_text (er_category x); er_type x; er_locator x])) _ (text_tok cm));
      auto using ValTok_line, line_CR, ValTok_text_form, text_CR.
    + apply text_accepts.
    + intro line. cbn [act line_tok tk_value option_map]. rewrite text_value by exact Hc1. apply A. symmetry. exact E.
  - cbn [truthy_opt]. eapply Steps_writes; [|eapply Steps_writes; [apply Steps_nil|apply Steps_done]].
    apply (Steps_field O T_ExternalRef K_line _ (line_tok (join $" " [cat_text (er_category x); er_type x; er_locator x]))); auto using ValTok_line, line_CR.
    intro line. cbn [act line_tok tk_value option_map]. apply A. symmetry. exact E.
Qed.
(** ranges *)
Lemma str_of_Z_nonneg z : (0 <= z)%Z -> str_of_Z z = str_of_N (Z.to_N z).
Proof. intro H. unfold str_of_Z. destruct (Z.ltb_spec z 0); [lia|]. f_equal. lia. Qed.
Definition VRange' (r : Z * Z) : tval := VRange (fst r) (snd r).
Lemma f_range t f (o : option (Z * Z)) : IfSome (fun r => (0 <= fst r /\ 0 <= snd r)%Z) o -> value_kind t = Some K_line -> get_property_name t = f ->
  str_in f (map fst L) = false -> (forall line k st, act O t line k None st = snippet_range t line (tk_value k) st) ->
  Steps (write_range (tag_name t) o) (est b ci C_Snippet L) (est b ci C_Snippet (L ++ [(f, option_map VRange' o)])).
Proof.
  intros Ho Hk Hf Hn Ha.
  replace (write_range (tag_name t) o) with (match o with Some r => write_range (tag_name t) (Some r) | None => Ok [] end) by (destruct o as [[? ?]|]; reflexivity).
  apply (optional O (fun r => (0 <= fst r /\ 0 <= snd r)%Z)); auto. intros [x y] [Hx Hy]. cbn [fst snd] in *. cbn [write_range].
  rewrite !str_of_Z_nonneg by auto. pose proof (range_line (Z.to_N x) (Z.to_N y)) as HL.
  set (v := str_of_N (Z.to_N x) ++ #":" :: str_of_N (Z.to_N y)) in *.
  replace (tag_name t ++ $": " ++ str_of_N (Z.to_N x) ++ $":" ++ str_of_N (Z.to_N y) ++ [LF]) with (tag_name t ++ $": " ++ v ++ [LF])
    by (unfold v; rewrite <- app_assoc; reflexivity).
  apply (Steps_field O t K_line v (line_tok v)); auto using ValTok_line, line_CR.
  intro line. rewrite Ha. unfold snippet_range. rewrite in_class_est, Hf. cbn [ps_cur est line_tok tk_value]. rewrite table_fresh by exact Hn.
  assert (S : strip v = v) by apply HL. rewrite S.
  destruct (range_matched (str_of_N (Z.to_N x)) (str_of_N (Z.to_N y))) as (g & G); try apply str_of_N_nonempty;
    try (eapply forallb_imp; [apply digit09_digit|apply str_of_N_digits]).
  fold v in G. rewrite G.
  assert (Hnc : forall n, ~ In #":" (str_of_N n)).
  { intros n K. pose proof (str_of_N_digits n) as D. rewrite forallb_forall in D. apply D in K. discriminate. }
  assert (E : split_on #":" v = [str_of_N (Z.to_N x); str_of_N (Z.to_N y)]) by (apply split_two; unfold v; auto).
  rewrite E. cbn [hd last]. rewrite !dec_val_str_of_N, !Z2N.id by auto. rewrite with_cur_est by exact Hn. reflexivity.
Qed.
End Fields.
End WithOracles.
