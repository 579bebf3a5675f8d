(** Lemmas about Base.v: arithmetic tactic setup, lists, memory. *)
From Verif Require Import Base.

Ltac Zify.zify_post_hook ::= Z.div_mod_to_equations.

Lemma len_nonneg l : 0 <= len l.
Proof. unfold len; lia. Qed.

Lemma len_app a b : len (a ++ b) = len a + len b.
Proof. unfold len; rewrite app_length; lia. Qed.

Lemma len_cons x l : len (x :: l) = 1 + len l.
Proof. unfold len; simpl length; lia. Qed.

Lemma len_nil : len [] = 0.
Proof. reflexivity. Qed.

Lemma len_firstn n l : 0 <= n <= len l -> len (firstn (Z.to_nat n) l) = n.
Proof. unfold len; intros; rewrite firstn_length; lia. Qed.

Lemma len_skipn n l : 0 <= n <= len l -> len (skipn (Z.to_nat n) l) = len l - n.
Proof. unfold len; intros; rewrite skipn_length; lia. Qed.

Lemma len_zeros n : 0 <= n -> len (zeros n) = n.
Proof. unfold len, zeros; intros; rewrite repeat_length; lia. Qed.

Lemma len_rev l : len (rev l) = len l.
Proof. unfold len; now rewrite rev_length. Qed.

Lemma bytes_ok_app a b : bytes_ok (a ++ b) <-> bytes_ok a /\ bytes_ok b.
Proof. apply Forall_app. Qed.

Lemma bytes_ok_zeros n : bytes_ok (zeros n).
Proof.
  unfold zeros, bytes_ok. apply Forall_forall. intros x Hx.
  apply repeat_spec in Hx. subst. unfold is_byte; lia.
Qed.

Lemma bytes_ok_firstn n l : bytes_ok l -> bytes_ok (firstn n l).
Proof.
  unfold bytes_ok. revert n; induction l; intros [|n] H; simpl; auto.
  inversion H; subst. constructor; auto.
Qed.

Lemma bytes_ok_skipn n l : bytes_ok l -> bytes_ok (skipn n l).
Proof.
  unfold bytes_ok. revert n; induction l; intros [|n] H; simpl; auto.
  inversion H; subst. auto.
Qed.

Lemma bytes_ok_rev l : bytes_ok l -> bytes_ok (rev l).
Proof.
  unfold bytes_ok; rewrite !Forall_forall; intros H x Hx.
  apply H. now apply in_rev.
Qed.

Lemma bytes_ok_nth l n : bytes_ok l -> is_byte (nth n l 0).
Proof.
  intros H. destruct (Nat.lt_ge_cases n (length l)).
  - unfold bytes_ok in H. rewrite Forall_forall in H. apply H. now apply nth_In.
  - rewrite nth_overflow by lia. unfold is_byte; lia.
Qed.

Lemma nth_firstn_lt (l : list Z) n i d : (i < n)%nat -> nth i (firstn n l) d = nth i l d.
Proof.
  revert n i; induction l; intros [|n] [|i] H; simpl; auto; try lia.
  apply IHl; lia.
Qed.

Lemma nth_skipn_add (l : list Z) n i d : nth i (skipn n l) d = nth (n + i) l d.
Proof.
  revert n i; induction l; intros [|n] i; simpl; auto.
  destruct i; auto.
Qed.

Lemma nth_zeros n i : nth i (zeros n) 0 = 0.
Proof.
  unfold zeros. destruct (Nat.lt_ge_cases i (Z.to_nat n)).
  - apply (repeat_spec (Z.to_nat n)). apply nth_In. rewrite repeat_length; lia.
  - apply nth_overflow. rewrite repeat_length; lia.
Qed.

Lemma mem_get_ok m i : 0 <= i < len m -> mem_get m i = Ret (nth (Z.to_nat i) m 0).
Proof.
  intros. unfold mem_get.
  replace ((0 <=? i) && (i <? len m)) with true by lia. reflexivity.
Qed.

Lemma mem_read_ok m pos n : 0 <= pos -> 0 <= n -> pos + n <= len m ->
  mem_read m pos n = Ret (firstn (Z.to_nat n) (skipn (Z.to_nat pos) m)).
Proof.
  intros. unfold mem_read.
  replace ((0 <=? pos) && (0 <=? n) && (pos + n <=? len m)) with true by lia. reflexivity.
Qed.

Lemma mem_write_ok m pos l : 0 <= pos -> pos + len l <= len m ->
  mem_write m pos l = Ret (firstn (Z.to_nat pos) m ++ l ++ skipn (Z.to_nat pos + length l) m).
Proof.
  intros. unfold mem_write.
  replace ((0 <=? pos) && (pos + len l <=? len m)) with true by lia. reflexivity.
Qed.

Lemma len_splice m pos l : 0 <= pos -> pos + len l <= len m ->
  len (firstn (Z.to_nat pos) m ++ l ++ skipn (Z.to_nat pos + length l) m) = len m.
Proof.
  intros. pose proof (len_nonneg l). rewrite !len_app. unfold len in *.
  rewrite firstn_length, skipn_length. lia.
Qed.

Lemma nth_splice m pos l i : 0 <= pos -> pos + len l <= len m -> 0 <= i ->
  nth (Z.to_nat i) (firstn (Z.to_nat pos) m ++ l ++ skipn (Z.to_nat pos + length l) m) 0
  = if (pos <=? i) && (i <? pos + len l) then nth (Z.to_nat (i - pos)) l 0
    else nth (Z.to_nat i) m 0.
Proof.
  intros Hp Hl Hi. unfold len in *.
  assert (Hf : length (firstn (Z.to_nat pos) m) = Z.to_nat pos)
    by (rewrite firstn_length; lia).
  destruct (Z.ltb_spec i pos).
  - replace ((pos <=? i) && _) with false by lia.
    rewrite app_nth1 by lia. apply nth_firstn_lt. lia.
  - rewrite app_nth2 by lia. rewrite Hf.
    destruct (Z.ltb_spec i (pos + Z.of_nat (length l))).
    + replace ((pos <=? i) && _) with true by lia.
      rewrite app_nth1 by lia. f_equal; lia.
    + replace ((pos <=? i) && _) with false by lia.
      rewrite app_nth2 by lia. rewrite nth_skipn_add. f_equal; lia.
Qed.

Lemma bytes_ok_splice m pos l k : bytes_ok m -> bytes_ok l ->
  bytes_ok (firstn pos m ++ l ++ skipn k m).
Proof.
  intros. rewrite !bytes_ok_app. auto using bytes_ok_firstn, bytes_ok_skipn.
Qed.

Lemma list_ext_Z (a b : list Z) : len a = len b ->
  (forall i, 0 <= i < len a -> nth (Z.to_nat i) a 0 = nth (Z.to_nat i) b 0) -> a = b.
Proof.
  intros Hl H. apply (nth_ext a b 0 0).
  - unfold len in *; lia.
  - intros n Hn. specialize (H (Z.of_nat n)). rewrite Nat2Z.id in H.
    apply H. unfold len; lia.
Qed.

Lemma obind_assoc {A B C} (x : outcome A) (f : A -> outcome B) (g : B -> outcome C) :
  obind (obind x f) g = obind x (fun a => obind (f a) g).
Proof. destruct x; reflexivity. Qed.

Lemma slice_range_ok s a b : 0 <= a <= b -> b <= sl_len s ->
  slice_range s a b = Ret (mkSlice (skipn (Z.to_nat a) (sl_mem s)) (b - a)).
Proof.
  intros. unfold slice_range.
  now replace ((0 <=? a) && (a <=? b) && (b <=? sl_len s)) with true by lia.
Qed.

Lemma slice_range_panic s a b : ~ (0 <= a <= b /\ b <= sl_len s) -> slice_range s a b = Panic.
Proof.
  intros. unfold slice_range.
  now replace ((0 <=? a) && (a <=? b) && (b <=? sl_len s)) with false by lia.
Qed.

Lemma len_sl_bytes s : slice_ok s -> len (sl_bytes s) = sl_len s.
Proof. intros [H _]. apply len_firstn. lia. Qed.

Lemma slice_ok_range s a b : slice_ok s -> 0 <= a <= b -> b <= sl_len s ->
  slice_ok (mkSlice (skipn (Z.to_nat a) (sl_mem s)) (b - a)).
Proof.
  intros (H & Hm & Hb) Ha Hl. split; [|split]; simpl.
  - rewrite len_skipn; lia.
  - lia.
  - now apply bytes_ok_skipn.
Qed.

Lemma slice_ok_whole l : bytes_ok l -> len l <= isize_max -> slice_ok (whole l).
Proof. intros. split; simpl; auto. pose proof (len_nonneg l). lia. Qed.

Lemma wrap_ok b x : 0 <= x < usize_limit -> wrap_or_panic b x = Ret x.
Proof. intros. unfold wrap_or_panic. now replace ((0 <=? x) && (x <? usize_limit)) with true by lia. Qed.

Lemma wrap_debug_panic x : ~ (0 <= x < usize_limit) -> wrap_or_panic Debug x = Panic.
Proof. intros. unfold wrap_or_panic. now replace ((0 <=? x) && (x <? usize_limit)) with false by lia. Qed.

Lemma wrap_cases b x : wrap_or_panic b x = Panic \/
  exists y, wrap_or_panic b x = Ret y /\ 0 <= y < usize_limit.
Proof.
  unfold wrap_or_panic. destruct ((0 <=? x) && (x <? usize_limit)) eqn:E.
  - right. exists x. split; [reflexivity|lia].
  - destruct b; auto. right. eexists; split; [reflexivity|].
    apply Z.mod_pos_bound. reflexivity.
Qed.
