(** Facts about paths, keys and resource names. *)
From Verif Require Import Base BaseFacts Storage.
Local Open Scope list_scope.
Local Open Scope Z_scope.

Lemma comps_eqb_eq a b : comps_eqb a b = true <-> a = b.
Proof.
  revert b. induction a as [|x a IH]; intros [|y b]; simpl; try (split; congruence).
  rewrite andb_true_iff, String.eqb_eq, IH. split; [intros [-> ->]|intros [= -> ->]]; auto.
Qed.

Lemma key_eqb_eq a b : key_eqb a b = true <-> a = b.
Proof.
  destruct a as [x a], b as [y b]. unfold key_eqb. simpl.
  rewrite andb_true_iff, eqb_true_iff, comps_eqb_eq.
  split; [intros [-> ->]|intros [= -> ->]]; auto.
Qed.

Lemma key_eqb_refl a : key_eqb a a = true.
Proof. apply key_eqb_eq. auto. Qed.

Lemma key_eqb_neq a b : a <> b -> key_eqb a b = false.
Proof. intros. destruct (key_eqb a b) eqn:E; auto. apply key_eqb_eq in E. congruence. Qed.

Lemma key_eq_dec (a b : key) : {a = b} + {a <> b}.
Proof. destruct (key_eqb a b) eqn:E; [left; apply key_eqb_eq; auto|right]. intros ->.
  rewrite key_eqb_refl in E. discriminate. Qed.

Lemma kupd_same {V} k (v : V) f : kupd k v f k = v.
Proof. unfold kupd. rewrite key_eqb_refl. auto. Qed.
Lemma kupd_other {V} k (v : V) f x : x <> k -> kupd k v f x = f x.
Proof. intros. unfold kupd. rewrite key_eqb_neq; auto. Qed.
Lemma supd_same {V} k (v : V) f : supd k v f k = v.
Proof. unfold supd. rewrite String.eqb_refl. auto. Qed.
Lemma supd_other {V} k (v : V) f x : x <> k -> supd k v f x = f x.
Proof. intros. unfold supd. destruct (String.eqb_spec x k); congruence. Qed.
Lemma nupd_same {V} k (v : V) f : nupd k v f k = v.
Proof. unfold nupd. rewrite Nat.eqb_refl. auto. Qed.
Lemma nupd_other {V} k (v : V) f x : x <> k -> nupd k v f x = f x.
Proof. intros. unfold nupd. destruct (Nat.eqb_spec x k); congruence. Qed.

(** ** Strings *)
Lemma sapp_assoc a b c : ((a ++ b) ++ c = a ++ (b ++ c))%string.
Proof. induction a; simpl; congruence. Qed.
Lemma sapp_nil_r a : (a ++ "" = a)%string.
Proof. induction a; simpl; congruence. Qed.
Lemma slen_app a b : (String.length (a ++ b) = String.length a + String.length b)%nat.
Proof. induction a; simpl; auto. Qed.
Lemma sapp_inj_l a b c : (a ++ b = a ++ c)%string -> b = c.
Proof. induction a; simpl; [auto|intros [= H]; auto]. Qed.
Lemma sapp_inj_r a b c : (a ++ c = b ++ c)%string -> a = b.
Proof.
  revert b. induction a as [|x a IH]; intros [|y b]; simpl; auto.
  - intros H. apply (f_equal String.length) in H. simpl in H. rewrite slen_app in H. lia.
  - intros H. apply (f_equal String.length) in H. simpl in H. rewrite slen_app in H. lia.
  - intros [= -> H]. f_equal. auto.
Qed.

(** ** Components *)
Lemma split_slash_cons s : exists h t, split_slash s = h :: t.
Proof. destruct s as [|c r]; simpl; [eauto|]. destruct (Ascii.eqb c slash); [eauto|].
  destruct (split_slash r); eauto. Qed.

Lemma split_slash_last s : exists i l, split_slash s = i ++ [l].
Proof.
  destruct (split_slash_cons s) as (h & t & E). rewrite E.
  destruct (@exists_last _ (h :: t)) as (i & l & H); [congruence|]. eauto.
Qed.

(** Splitting a concatenation joins the last and the first segment. *)
Lemma split_slash_app a b i l h t : split_slash a = i ++ [l] -> split_slash b = h :: t ->
  split_slash (a ++ b) = i ++ (l ++ h)%string :: t.
Proof.
  revert i l. induction a as [|c a IH]; intros i l Ha Hb; simpl in Ha.
  - destruct i as [|x i]; simpl in Ha; [|destruct i; discriminate].
    injection Ha as <-. simpl. auto.
  - simpl. destruct (Ascii.eqb c slash) eqn:E.
    + destruct i as [|x i]; simpl in Ha.
      * injection Ha as Hl Hs. destruct (split_slash_cons a) as (? & ? & ?). congruence.
      * injection Ha as <- Hs. rewrite (IH i l Hs Hb). auto.
    + destruct (split_slash_cons a) as (x & r & Es). rewrite Es in *.
      destruct i as [|y i]; simpl in Ha.
      * injection Ha as <- ->. rewrite (IH [] x eq_refl Hb). auto.
      * injection Ha as <- ->. rewrite (IH (x :: i) l eq_refl Hb). auto.
Qed.

Fixpoint no_slash (s : string) : bool :=
  match s with EmptyString => true | String c r => negb (Ascii.eqb c slash) && no_slash r end.

Lemma split_no_slash s : no_slash s = true -> split_slash s = [s].
Proof.
  induction s as [|c r IH]; simpl; auto. rewrite andb_true_iff. intros [H1 H2].
  destruct (Ascii.eqb c slash); [discriminate|]. rewrite IH; auto.
Qed.

Lemma no_slash_app a b : no_slash (a ++ b) = no_slash a && no_slash b.
Proof. induction a; simpl; auto. rewrite IHa, andb_assoc. auto. Qed.

Lemma split_segments s : Forall (fun x => no_slash x = true) (split_slash s).
Proof.
  induction s as [|c r IH]; simpl; [repeat constructor|].
  destruct (Ascii.eqb c slash) eqn:E; [constructor; auto|].
  destruct (split_slash r) as [|x t]; [repeat constructor|]; simpl; rewrite ?E; auto.
  inversion IH; subst. constructor; auto. simpl. rewrite E, H1. auto.
Qed.

Lemma ends_with_slash_split s : s <> ""%string ->
  (ends_with_slash s = true <-> exists i, split_slash s = i ++ [""%string] /\ i <> []).
Proof.
  assert (G : forall n s, String.length s = S n ->
    match String.get n s with Some c => Ascii.eqb c slash | None => false end = true <->
    exists i, split_slash s = i ++ [""%string] /\ i <> []).
  { induction n as [|n IH]; intros [|c [|d r]] H; simpl in H; try lia.
    - simpl. destruct (Ascii.eqb c slash) eqn:E.
      + split; auto. intros _. exists [""%string]. split; auto. congruence.
      + split; [discriminate|]. intros (i & H1 & H2). destruct i as [|x i]; [congruence|].
        simpl in H1. destruct i; discriminate.
    - change (String.get (S n) (String c (String d r))) with (String.get n (String d r)).
      rewrite IH by (simpl in *; lia). destruct (split_slash_cons (String d r)) as (h & t & Es).
      change (split_slash (String c (String d r))) with
        (if Ascii.eqb c slash then ""%string :: split_slash (String d r)
         else match split_slash (String d r) with [] => [String c ""] | x :: t => String c x :: t end).
      rewrite Es. destruct (Ascii.eqb c slash).
      + split.
        * intros (i & H1 & H2). exists (""%string :: i). simpl. rewrite H1. split; congruence.
        * intros (i & H1 & H2). destruct i as [|x i]; [congruence|]. simpl in H1.
          injection H1 as <- H1. exists i. split; auto. intros ->. simpl in H1.
          injection H1 as -> ->. simpl in Es. destruct (Ascii.eqb d slash); [|destruct (split_slash r); discriminate].
          destruct (split_slash_cons r) as (? & ? & ?). congruence.
      + split.
        * intros (i & H1 & H2). destruct i as [|x i]; [congruence|]. simpl in H1.
          injection H1 as -> ->. exists (String c x :: i). simpl. split; auto. congruence.
        * intros (i & H1 & H2). destruct i as [|x i]; [congruence|]. simpl in H1.
          injection H1 as <- ->. exists (h :: i). split; auto. congruence. }
  intros H. destruct s as [|c r]; [congruence|]. unfold ends_with_slash.
  replace (String.length (String c r) - 1)%nat with (String.length r) by (simpl; lia).
  apply G. auto.
Qed.

(** ** Keys of resources *)
(** A resource name that denotes a file of its own directly below the path of
    the storage: one path component, not "." *)
Definition valid_name (n : string) : Prop :=
  no_slash n = true /\ n <> ""%string /\ n <> "."%string.

Lemma not_absolute n : no_slash n = true -> is_absolute n = false.
Proof. destruct n; simpl; auto. rewrite andb_true_iff. intros [H _]. destruct (Ascii.eqb a slash); auto. Qed.

Lemma is_absolute_app a b : a <> ""%string -> is_absolute (a ++ b) = is_absolute a.
Proof. destruct a; simpl; congruence. Qed.

Lemma filter_app' {A} (p : A -> bool) a b : filter p (a ++ b) = filter p a ++ filter p b.
Proof. induction a; simpl; auto. destruct (p a); simpl; congruence. Qed.

Lemma real_valid n : valid_name n -> real_component n = true.
Proof.
  intros (_ & H1 & H2). unfold real_component.
  destruct (String.eqb_spec n ""); [congruence|]. destruct (String.eqb_spec n "."); [congruence|]. auto.
Qed.

Lemma key_join base n : valid_name n ->
  key_of (path_join base n) = (is_absolute base, snd (key_of base) ++ [n]).
Proof.
  intros V. assert (Hr := real_valid n V). destruct V as (V1 & V2 & V3).
  unfold path_join. rewrite (not_absolute n V1). unfold key_of. simpl.
  assert (Sn := split_no_slash n V1).
  destruct (String.eqb_spec base "") as [->|Hb].
  - simpl. rewrite Sn. simpl. rewrite Hr. rewrite (not_absolute n V1). auto.
  - destruct (ends_with_slash base) eqn:E.
    + apply ends_with_slash_split in E; auto. destruct E as (i & E & _).
      rewrite is_absolute_app, E, (split_slash_app base n i "" n [] E Sn) by auto.
      rewrite !filter_app'. simpl. rewrite Hr. simpl. rewrite app_nil_r. auto.
    + rewrite is_absolute_app by auto. destruct (split_slash_last base) as (i & l & E2).
      assert (S2 : split_slash (String "/"%char n) = [""%string; n]) by (simpl; rewrite Sn; auto).
      rewrite (split_slash_app base (String "/"%char n) i l "" [n] E2 S2), E2, !filter_app'.
      rewrite sapp_nil_r. change (l :: [n]) with ([l] ++ [n]). rewrite filter_app'.
      rewrite app_assoc. f_equal. simpl. rewrite Hr. f_equal.
Qed.

Lemma res_key_valid st n : valid_name n ->
  res_key st n = (is_absolute (st_base st), snd (key_of (st_base st)) ++ [n]).
Proof. apply key_join. Qed.

Lemma removelast_snoc {A} (l : list A) x : removelast (l ++ [x]) = l.
Proof. apply removelast_last. Qed.

Lemma parent_res_key st n : valid_name n -> parent (res_key st n) = key_of (st_base st).
Proof. intros. rewrite res_key_valid by auto. unfold parent. simpl. rewrite removelast_snoc. reflexivity. Qed.

Lemma res_key_inj st n m : valid_name n -> valid_name m -> res_key st n = res_key st m -> n = m.
Proof.
  intros. rewrite !res_key_valid in * by auto. injection H1 as H1. apply app_inj_tail in H1. tauto.
Qed.

Lemma valid_app a b : valid_name a -> no_slash b = true -> valid_name (a ++ b).
Proof.
  intros (H1 & H2 & H3) Hb. repeat split.
  - rewrite no_slash_app, H1, Hb. auto.
  - destruct a; simpl; congruence.
  - destruct a as [|c [|d r]]; [congruence| |simpl; congruence].
    destruct b; simpl; [intros [= ->]; congruence|congruence].
Qed.

Lemma valid_schema n : valid_name n -> valid_name (schema_name n).
Proof. intros. apply valid_app; auto. Qed.

(** The key of a resource and of its schema always differ. *)
Lemma key_schema_app p : key_of (p ++ ".schema") <> key_of p.
Proof.
  intros H. unfold key_of in H. injection H as _ H.
  destruct (split_slash_last p) as (i & l & E).
  rewrite (split_slash_app p ".schema" i l ".schema" [] E) in H by reflexivity.
  rewrite E, !filter_app' in H. apply app_inv_head in H. simpl in H.
  assert (R : real_component (l ++ ".schema") = true).
  { unfold real_component. destruct (String.eqb_spec (l ++ ".schema") "") as [e|_];
      [apply (f_equal String.length) in e; rewrite slen_app in e; simpl in e; lia|].
    destruct (String.eqb_spec (l ++ ".schema") ".") as [e|_]; auto.
    apply (f_equal String.length) in e. rewrite slen_app in e. simpl in e. lia. }
  rewrite R in H. destruct (real_component l); [|discriminate]. injection H as H.
  apply (f_equal String.length) in H. rewrite slen_app in H. simpl in H. lia.
Qed.

Lemma path_join_schema base n : path_join base (schema_name n) = (path_join base n ++ ".schema")%string.
Proof.
  unfold path_join, schema_name. assert (is_absolute (n ++ ".schema") = is_absolute n) by (destruct n; auto).
  rewrite H. destruct (is_absolute n); auto.
  destruct (ends_with_slash base); rewrite ?sapp_assoc; auto.
Qed.

Lemma res_key_schema st n : res_key st (schema_name n) <> res_key st n.
Proof. unfold res_key, res_path. rewrite path_join_schema. apply key_schema_app. Qed.

Lemma res_path_schema st n : res_path st (schema_name n) <> res_path st n.
Proof. intros H. apply (res_key_schema st n). unfold res_key. congruence. Qed.
