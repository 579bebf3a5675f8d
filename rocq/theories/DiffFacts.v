(** Proofs about diffs. *)
From Verif Require Import Base BaseFacts Storage Diff DiffSpec.
Local Open Scope list_scope.
Local Open Scope Z_scope.

Definition one_line (x : list Z) : Prop := ~ In 10 x.

Lemma lines_nonempty t : lines_of t <> [].
Proof. destruct t as [|c t]; simpl; [discriminate|]. destruct (c =? 10); [discriminate|]. destruct (lines_of t); discriminate. Qed.
Lemma lines_one x : one_line x -> lines_of x = [x].
Proof.
  induction x as [|c x IH]; intros H; auto. simpl. destruct (c =? 10) eqn:E; [exfalso; apply H; left; lia|].
  rewrite IH; auto. intros I. apply H. right; auto.
Qed.
Lemma lines_cons x t : one_line x -> lines_of (x ++ 10 :: t) = x :: lines_of t.
Proof.
  induction x as [|c x IH]; intros H; auto. simpl. destruct (c =? 10) eqn:E; [exfalso; apply H; left; lia|].
  rewrite IH; auto. intros I. apply H. right; auto.
Qed.
Lemma lines_join l : Forall one_line l -> l <> [] -> lines_of (join_lines l) = l.
Proof.
  induction l as [|x l IH]; intros F N; [congruence|]. inversion F; subst. destruct l as [|y l].
  - simpl. apply lines_one; auto.
  - change (join_lines (x :: y :: l)) with (x ++ 10 :: join_lines (y :: l)). rewrite lines_cons by auto. f_equal. apply IH; auto. discriminate.
Qed.
Lemma join_lines_of t : join_lines (lines_of t) = t.
Proof.
  induction t as [|c t IH]; auto. simpl. destruct (c =? 10) eqn:E.
  - assert (N := lines_nonempty t). destruct (lines_of t); [congruence|]. simpl in *. rewrite IH. f_equal. lia.
  - assert (N := lines_nonempty t). destruct (lines_of t) as [|x [|y r]]; [congruence| |]; simpl in *; congruence.
Qed.
Lemma lines_are_lines t : Forall one_line (lines_of t).
Proof.
  induction t as [|c t IH]; simpl; [constructor; [intros []|constructor]|].
  destruct (c =? 10) eqn:E; [constructor; [intros []|exact IH]|].
  assert (N := lines_nonempty t). destruct (lines_of t) as [|x r]; [congruence|]. inversion IH; subst. constructor; auto.
  intros [H|H]; [lia|auto].
Qed.

Lemma edits_lines es : Forall one_line (left_lines es) -> Forall one_line (right_lines es) -> common_equal es ->
  Forall one_line (map edit_line es).
Proof.
  induction es as [|[x|x y|x] es IH]; simpl; intros F1 F2 C; [constructor| | |].
  - inversion F1; subst. constructor; [|apply IH; auto; intros a b I; apply C; right; auto]. intros [H|H]; [discriminate|auto].
  - inversion F1; inversion F2; subst. constructor; [|apply IH; auto; intros a b I; apply C; right; auto]. intros [H|H]; [discriminate|auto].
  - inversion F2; subst. constructor; [|apply IH; auto; intros a b I; apply C; right; auto]. intros [H|H]; [discriminate|auto].
Qed.

Lemma diff_lines l r es : script l r es -> lines_of (compute_diff es) = map edit_line es.
Proof.
  intros [S1 S2 C]. unfold compute_diff. apply lines_join.
  - apply edits_lines; auto; rewrite ?S1, ?S2; apply lines_are_lines.
  - intros E. apply map_eq_nil in E. subst es. apply (lines_nonempty l). symmetry. exact S1.
Qed.
Lemma shown_left es : common_equal es -> flat_map (fun line => match line with
    | c :: x => if (c =? 45) || (c =? 32) then [x] else [] | [] => [] end) (map edit_line es) = left_lines es.
Proof. intros _. induction es as [|[x|x y|x] es IH]; simpl; congruence. Qed.
Lemma shown_right es : common_equal es -> flat_map (fun line => match line with
    | c :: x => if (c =? 43) || (c =? 32) then [x] else [] | [] => [] end) (map edit_line es) = right_lines es.
Proof.
  induction es as [|[x|x y|x] es IH]; simpl; intros C; auto.
  - apply IH. intros a b I. apply C. right; auto.
  - rewrite (C x y) by (left; auto). f_equal. apply IH. intros a b I. apply C. right; auto.
  - f_equal. apply IH. intros a b I. apply C. right; auto.
Qed.

Lemma marks_or_same es : common_equal es ->
  (exists c x, In (c :: x) (map edit_line es) /\ (c = 45 \/ c = 43)) \/ left_lines es = right_lines es.
Proof.
  induction es as [|[x|x y|x] es IH]; simpl; intros C; auto.
  - left. exists 45, x. auto.
  - destruct IH as [(c & z & I & H)|E]; [intros a b I; apply C; right; auto| |].
    + left. exists c, z. auto.
    + right. rewrite (C x y) by (left; auto). congruence.
  - left. exists 43, x. auto.
Qed.

Lemma diff_shows l r es : script l r es ->
  join_lines (shown 45 (compute_diff es)) = l /\ join_lines (shown 43 (compute_diff es)) = r /\
  (l <> r -> marked (compute_diff es)).
Proof.
  intros S. assert (D := diff_lines l r es S). destruct S as [S1 S2 C].
  assert (E1 : shown 45 (compute_diff es) = lines_of l) by (unfold shown; rewrite D, shown_left; auto).
  assert (E2 : shown 43 (compute_diff es) = lines_of r) by (unfold shown; rewrite D, shown_right; auto).
  rewrite E1, E2, !join_lines_of. split; auto. split; auto. intros N. unfold marked. rewrite D.
  destruct (marks_or_same es C) as [H|H]; auto.
  exfalso. apply N. rewrite <- (join_lines_of l), <- (join_lines_of r), <- S1, <- S2, H. reflexivity.
Qed.
