(** Texts of errors can be read back. *)
From Verif Require Import Base BaseFacts Storage Diff DiffSpec DiffFacts ErrorText ErrorTextSpec.
Local Open Scope list_scope.
Local Open Scope Z_scope.

(** * A reader of escaped characters *)
Definition unhex (d : Z) : Z := if d <? 58 then d - 48 else d - 87.
Fixpoint parse_hex (t : list Z) (acc : Z) : option (Z * list Z) :=
  match t with
  | [] => None
  | d :: r => if d =? 125 then Some (acc, r) else parse_hex r (acc * 16 + unhex d)
  end.
Definition next (t : list Z) : option (Z * list Z) :=
  match t with
  | [] => None
  | c :: r =>
      if c =? 34 then None
      else if c =? 92 then
        match r with
        | [] => None
        | d :: r =>
            if d =? 116 then Some (9, r) else if d =? 114 then Some (13, r) else if d =? 110 then Some (10, r)
            else if d =? 48 then Some (0, r)
            else if d =? 117 then match r with [] => None | _ :: r => parse_hex r 0 end
            else Some (d, r)
        end
      else Some (c, r)
  end.
Lemma hex_digit_facts d : 0 <= d < 16 -> 48 <= hex_digit d < 103 /\ unhex (hex_digit d) = d.
Proof. intros H. unfold hex_digit, unhex. destruct (d <? 10) eqn:E; [rewrite (proj2 (Z.ltb_lt _ _)) by lia|rewrite (proj2 (Z.ltb_ge _ _)) by lia]; lia. Qed.
Lemma parse_hex_digits n : forall c t acc, 0 <= c < 16 ^ Z.of_nat n ->
  exists k, 0 <= k /\ parse_hex (hex_digits n c ++ t) acc = parse_hex t (acc * 16 ^ k + c).
Proof.
  induction n as [|n IH]; intros c t acc H.
  - cbn in H. exists 0. split; [lia|]. cbn. f_equal. lia.
  - assert (M : 0 <= c mod 16 < 16) by (apply Z.mod_pos_bound; lia). destruct (hex_digit_facts _ M) as (B & U).
    assert (Step : forall a, parse_hex (hex_digit (c mod 16) :: t) a = parse_hex t (a * 16 + c mod 16)).
    { intros a. cbn [parse_hex]. rewrite (proj2 (Z.eqb_neq _ _)) by lia. rewrite U. reflexivity. }
    cbn [hex_digits]. destruct (c <? 16) eqn:E.
    + exists 1. split; [lia|]. cbn [app]. rewrite Step. f_equal. rewrite Z.mod_small by lia. lia.
    + rewrite <- app_assoc. assert (HS : 16 ^ Z.of_nat (S n) = 16 * 16 ^ Z.of_nat n) by (rewrite Nat2Z.inj_succ, Z.pow_succ_r; lia).
      assert (D : c = 16 * (c / 16) + c mod 16) by (apply Z.div_mod; lia).
      destruct (IH (c / 16) ([hex_digit (c mod 16)] ++ t) acc) as (k & Hk & ->); [lia|]. exists (k + 1). split; [lia|].
      cbn [app]. rewrite Step. f_equal. rewrite Z.pow_add_r by lia. lia.
Qed.
Lemma hex_range n : forall c, 0 <= c -> Forall (fun d => 48 <= d < 103) (hex_digits n c).
Proof.
  induction n as [|n IH]; intros c H; [constructor|]. cbn [hex_digits]. apply Forall_app. split.
  - destruct (c <? 16); [constructor|]. apply IH. apply Z.div_pos; lia.
  - constructor; [|constructor]. apply hex_digit_facts. apply Z.mod_pos_bound. lia.
Qed.

Lemma escape_cases v c : 0 <= c ->
  (exists d, escape v c = [92; d] /\ ((c = 9 /\ d = 116) \/ (c = 13 /\ d = 114) \/ (c = 10 /\ d = 110) \/ (c = 0 /\ d = 48) \/
     d = c /\ (c = 92 \/ c = 34 \/ c = 39))) \/
  (escape v c = [c] /\ 32 <= c /\ c <> 34 /\ c <> 92) \/
  escape v c = [92; 117; 123] ++ hex c ++ [125].
Proof.
  intros H. unfold escape.
  destruct (c =? 9) eqn:E1; [left; exists 116; split; [reflexivity|lia]|].
  destruct (c =? 13) eqn:E2; [left; exists 114; split; [reflexivity|lia]|].
  destruct (c =? 10) eqn:E3; [left; exists 110; split; [reflexivity|lia]|].
  destruct (c =? 92) eqn:E4; [left; exists 92; split; [reflexivity|lia]|].
  destruct (c =? 34) eqn:E5; [left; exists 34; split; [reflexivity|lia]|].
  destruct (c =? 39) eqn:E6.
  { destruct (single_escaped v); [left; exists 39; split; [reflexivity|lia]|right; left; split; [f_equal; lia|lia]]. }
  destruct (c =? 0) eqn:E7; cbn [andb].
  - destruct (short_nul v); [left; exists 48; split; [reflexivity|lia]|].
    destruct ((32 <=? c) && (c <? 127) || (127 <=? c) && printable v c) eqn:P; [exfalso; lia|]. right. right. reflexivity.
  - destruct ((32 <=? c) && (c <? 127) || (127 <=? c) && printable v c) eqn:P; [right; left; split; [reflexivity|lia]|]. right. right. reflexivity.
Qed.
Lemma next_escape v c r : 0 <= c < 1114112 -> next (escape v c ++ r) = Some (c, r).
Proof.
  intros H. destruct (escape_cases v c) as [(d & -> & X)|[(-> & X)| -> ]]; [lia| | |].
  - cbn [app next]. rewrite Z.eqb_refl. change (92 =? 34) with false. cbv iota.
    destruct X as [(-> & ->)|[(-> & ->)|[(-> & ->)|[(-> & ->)|(-> & [ -> | [ -> | -> ] ])]]]]; reflexivity.
  - cbn [app next]. rewrite !(proj2 (Z.eqb_neq _ _)) by lia. reflexivity.
  - rewrite <- !app_assoc. cbn [app next]. change (92 =? 34) with false. change (92 =? 92) with true. change (117 =? 116) with false.
    change (117 =? 114) with false. change (117 =? 110) with false. change (117 =? 48) with false. change (117 =? 117) with true. cbv iota.
    unfold hex. destruct (parse_hex_digits 8 c (125 :: r) 0) as (k & _ & ->); [cbn; lia|]. cbn [parse_hex]. change (125 =? 125) with true. cbv iota.
    reflexivity.
Qed.
Lemma strings_inj v s1 : forall s2 r1 r2, chars s1 -> chars s2 ->
  flat_map (escape v) s1 ++ 34 :: r1 = flat_map (escape v) s2 ++ 34 :: r2 -> s1 = s2 /\ r1 = r2.
Proof.
  induction s1 as [|c s1 IH]; intros s2 r1 r2 H1 H2 E; destruct s2 as [|d s2]; cbn [flat_map] in E; rewrite <- ?app_assoc in E.
  - injection E as <-. auto.
  - apply (f_equal next) in E. inversion H2; subst. rewrite next_escape in E by assumption. discriminate E.
  - apply (f_equal next) in E. inversion H1; subst. rewrite next_escape in E by assumption. discriminate E.
  - inversion H1; subst. inversion H2; subst. apply (f_equal next) in E. rewrite !next_escape in E by assumption.
    injection E as <- E. destruct (IH s2 r1 r2) as (-> & ->); auto.
Qed.
Lemma quoted_inj v s1 s2 r1 r2 : chars s1 -> chars s2 -> quoted v s1 ++ r1 = quoted v s2 ++ r2 -> s1 = s2 /\ r1 = r2.
Proof.
  intros H1 H2 E. unfold quoted in E. cbn [app] in E. injection E as E. rewrite <- !app_assoc in E. cbn [app] in E. eapply strings_inj; eauto.
Qed.

(** Quotes inside of a string follow a backslash. *)
Lemma escape_quote v c a b : 0 <= c -> escape v c = a ++ 34 :: b -> a = [92].
Proof.
  intros H E. destruct (escape_cases v c H) as [(d & X & Y)|[(X & Y)|X]]; rewrite X in E.
  - destruct a as [|x [|y [|z a]]]; try discriminate E. injection E as <-. reflexivity.
  - destruct a as [|x [|y a]]; try discriminate E. injection E as E _. lia.
  - exfalso. assert (N : Forall (fun z => z <> 34) ([92; 117; 123] ++ hex c ++ [125])).
    { apply Forall_app. split; [repeat constructor; lia|]. apply Forall_app. split; [|repeat constructor; lia].
      eapply Forall_impl; [|apply hex_range, H]. cbn. intros; lia. }
    rewrite E in N. apply Forall_app in N. destruct N as (_ & N). inversion N; subst. auto.
Qed.
Lemma content_quote v s : forall a b, chars s -> flat_map (escape v) s = a ++ 34 :: b -> exists a', a = a' ++ [92].
Proof.
  induction s as [|c s IH]; intros a b H E; cbn [flat_map] in E; [destruct a; discriminate E|].
  inversion H; subst. apply app_eq_app in E. destruct E as (l & [(E1 & E2)|(E1 & E2)]).
  - destruct l as [|x l].
    + cbn in E2. destruct (IH [] b) as (a' & X); [assumption|rewrite <- E2; reflexivity|]. destruct a'; discriminate X.
    + cbn in E2. injection E2 as <- _. apply escape_quote in E1; [|lia]. exists []. exact E1.
  - destruct (IH l b) as (a' & ->); [assumption|exact E2|]. exists (escape v c ++ a'). rewrite <- app_assoc. exact E1.
Qed.
Lemma io_inj v e1 e2 s1 s2 : chars s1 -> chars s2 ->
  e1 ++ [44; 32] ++ quoted v s1 ++ [41] = e2 ++ [44; 32] ++ quoted v s2 ++ [41] -> e1 = e2 /\ s1 = s2.
Proof.
  intros H1 H2 E. unfold quoted in E. cbn [app] in E. rewrite <- !app_assoc in E. cbn [app] in E.
  assert (K : forall e s, e ++ 44 :: 32 :: 34 :: flat_map (escape v) s ++ [34; 41] = ((e ++ [44; 32]) ++ 34 :: flat_map (escape v) s) ++ [34; 41]).
  { intros. rewrite <- !app_assoc. reflexivity. }
  rewrite !K in E. apply app_inv_tail in E.
  assert (L : forall (e l : list Z), e ++ [44; 32] <> l ++ [92]).
  { intros e0 l X. change [44; 32] with ([44] ++ [32]) in X. rewrite app_assoc in X. apply app_inj_tail in X. destruct X. discriminate. }
  assert (Q : e1 ++ [44; 32] = e2 ++ [44; 32] /\ flat_map (escape v) s1 = flat_map (escape v) s2).
  { apply app_eq_app in E. destruct E as (l & [(A & B)|(A & B)]).
    - destruct l as [|x l]; [rewrite app_nil_r in A; injection B as B; split; [exact A|symmetry; exact B]|]. injection B as <- B.
      destruct (content_quote v s2 l (flat_map (escape v) s1) H2) as (l' & ->); [exact B|]. exfalso.
      apply (L e1 (e2 ++ [44; 32] ++ 34 :: l')). rewrite A, <- !app_assoc. reflexivity.
    - destruct l as [|x l]; [rewrite app_nil_r in A; injection B as B; split; [symmetry; exact A|exact B]|]. injection B as <- B.
      destruct (content_quote v s1 l (flat_map (escape v) s2) H1) as (l' & ->); [exact B|]. exfalso.
      apply (L e2 (e1 ++ [44; 32] ++ 34 :: l')). rewrite A, <- !app_assoc. reflexivity. }
  destruct Q as (Q1 & Q2). apply app_inv_tail in Q1. split; [exact Q1|].
  apply (strings_inj v s1 s2 [] []); auto. rewrite Q2. reflexivity.
Qed.
Lemma text_inj v x y : error_chars x -> error_chars y -> display_text v x = display_text v y -> x = y.
Proof.
  intros Hx Hy E. unfold display_text in E.
  destruct x as [e1 n1|e1|n1|n1 d1|], y as [e2 n2|e2|n2|n2 d2|]; cbn [error_chars] in Hx, Hy; try discriminate E.
  - cbn [debug_text] in E. apply app_inv_head in E. destruct (io_inj v e1 e2 n1 n2) as (-> & ->); [apply Hx|apply Hy|exact E|]. reflexivity.
  - cbn [debug_text] in E. apply app_inv_head in E. apply app_inv_tail in E. rewrite E. reflexivity.
  - cbn [debug_text] in E. apply app_inv_head in E. destruct (quoted_inj v n1 n2 _ _ Hx Hy E) as (-> & _). reflexivity.
  - cbn [debug_text] in E. apply app_inv_head in E. destruct (quoted_inj v n1 n2 _ _ (proj1 Hx) (proj1 Hy) E) as (-> & E2).
    apply app_inv_head in E2. destruct (quoted_inj v d1 d2 _ _ (proj2 Hx) (proj2 Hy) E2) as (-> & _). reflexivity.
  - reflexivity.
Qed.

(** * One line *)
Lemma escape_line v c : 0 <= c -> one_line (escape v c).
Proof.
  intros H. destruct (escape_cases v c H) as [(d & -> & X)|[(-> & X)| -> ]].
  - repeat constructor; lia.
  - repeat constructor; lia.
  - apply Forall_app. split; [repeat constructor; lia|]. apply Forall_app. split; [|repeat constructor; lia].
    eapply Forall_impl; [|apply hex_range, H]. cbn. intros; lia.
Qed.
Lemma quoted_line v s : chars s -> one_line (quoted v s).
Proof.
  intros H. constructor; [lia|]. apply Forall_app. split; [|repeat constructor; lia].
  induction H as [|c s H _ IH]; cbn [flat_map]; [constructor|]. apply Forall_app. split; [apply escape_line; lia|exact IH].
Qed.
Fixpoint line_check (s : list Z) : bool := match s with [] => true | c :: s => (32 <=? c) && line_check s end.
Lemma line_check_ok s : line_check s = true -> one_line s.
Proof. induction s as [|c s IH]; cbn; [constructor|]. intros H. constructor; [lia|]. apply IH. destruct (32 <=? c); [exact H|discriminate H]. Qed.
Lemma text_line v x : error_chars x -> std_lines x -> one_line (display_text v x).
Proof.
  intros H L. unfold display_text.
  destruct x as [e n|e|n|n d|]; cbn [debug_text error_chars std_lines] in *;
    repeat (apply Forall_app; split); try (apply line_check_ok; reflexivity); try exact L; try (apply quoted_line; apply H).
Qed.
Lemma line_no_feed s : one_line s -> ~ In 10 s.
Proof. intros H I. unfold one_line in H. rewrite Forall_forall in H. specialize (H 10 I). cbn in H. lia. Qed.
Lemma text_hides v n d x : chars n -> chars d -> In 10 x -> ~ contains (display_text v (WrongSignature n d)) x.
Proof.
  intros Hn Hd I (a & b & E). apply (line_no_feed (display_text v (WrongSignature n d))); [apply text_line; cbn; auto|].
  rewrite E. apply in_or_app. right. apply in_or_app. auto.
Qed.

(** * Plain texts are shown as they are *)
Lemma plain_chars s : plain s -> chars s.
Proof. intros H. eapply Forall_impl; [|exact H]. cbn. intros; lia. Qed.
Lemma plain_quoted v s : plain s -> quoted v s = 34 :: s ++ [34].
Proof.
  intros H. unfold quoted. do 2 f_equal. induction H as [|c s H _ IH]; [reflexivity|]. cbn [flat_map]. rewrite IH.
  unfold escape. rewrite !(proj2 (Z.eqb_neq _ _)) by lia. cbn [andb].
  rewrite (proj2 (Z.leb_le 32 c)), (proj2 (Z.ltb_lt c 127)) by lia. reflexivity.
Qed.

(** * The diff *)
Lemma lines_chars t : chars t -> Forall chars (lines_of t).
Proof.
  induction 1 as [|c t H _ IH]; [repeat constructor|]. cbn [lines_of]. destruct (c =? 10); [constructor; [constructor|exact IH]|].
  destruct (lines_of t) as [|x r]; [repeat constructor; apply H|]. inversion IH; subst. constructor; [constructor; assumption|assumption].
Qed.
Lemma join_chars l : Forall chars l -> chars (join_lines l).
Proof.
  induction 1 as [|x l H _ IH]; [constructor|]. destruct l as [|y l]; [exact H|].
  change (join_lines (x :: y :: l)) with (x ++ 10 :: join_lines (y :: l)). apply Forall_app. split; [exact H|]. constructor; [lia|exact IH].
Qed.
Lemma edits_chars es : Forall chars (left_lines es) -> Forall chars (right_lines es) -> Forall chars (map edit_line es).
Proof.
  induction es as [|[x|x y|y] es IH]; intros L R; cbn in *; [constructor|..].
  - inversion L; subst. constructor; [constructor; [lia|assumption]|auto].
  - inversion L; inversion R; subst. constructor; [constructor; [lia|assumption]|auto].
  - inversion R; subst. constructor; [constructor; [lia|assumption]|auto].
Qed.
Lemma diff_chars l r es : script l r es -> chars l -> chars r -> chars (compute_diff es).
Proof.
  intros S Hl Hr. apply join_chars, edits_chars; [rewrite (script_left _ _ _ S)|rewrite (script_right _ _ _ S)]; apply lines_chars; assumption.
Qed.
