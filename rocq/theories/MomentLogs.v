(** The logs of the writers, file by file. *)
From Verif Require Import Base BaseFacts Codec CodecSpec Structs StructsSpec Views ViewsSpec.
From Verif Require Import Storage PathFacts StorageSpec StorageFacts Writers WritersSpec MultiViews MultiSpec MomentSpec MomentFacts.
Local Open Scope list_scope.
Local Open Scope Z_scope.

(** * Logs and one file *)
Definition spares (k : key) (E : effect) : Prop :=
  match E with Quiet => True | Create k' => k' <> k | Put k' _ _ => k' <> k end.
Definition away (k : key) (L : list effect) : Prop := Forall (spares k) L.
(** Writes to [k] are appends; from position [p] they write [d]. *)
Inductive appends (k : key) : Z -> list effect -> list Z -> Prop :=
| App_nil p : appends k p [] []
| App_other p E L d : spares k E -> appends k p L d -> appends k p (E :: L) d
| App_put p d L d' : appends k (p + len d) L d' -> appends k p (Put k p d :: L) (d ++ d').
(** Nothing but writes to [k]. *)
Definition only (k : key) (L : list effect) : Prop :=
  Forall (fun E => E = Quiet \/ exists p d, E = Put k p d) L.

Lemma away_app k L1 L2 : away k L1 -> away k L2 -> away k (L1 ++ L2).
Proof. intros. apply Forall_app. auto. Qed.
Lemma only_app k L1 L2 : only k L1 -> only k L2 -> only k (L1 ++ L2).
Proof. intros. apply Forall_app. auto. Qed.
Lemma only_put k p d : only k [Put k p d].
Proof. constructor; [right; eauto|constructor]. Qed.
Lemma only_away k k' L : only k L -> k <> k' -> away k' L.
Proof.
  intros H N. eapply Forall_impl; [|exact H]. intros E [->|(p & d & ->)]; simpl; auto.
Qed.
Lemma quiet_away k L : quiet_log L -> away k L.
Proof. intros H. eapply Forall_impl; [|exact H]. intros E <-. exact I. Qed.
Lemma quiet_only k L : quiet_log L -> only k L.
Proof. intros H. eapply Forall_impl; [|exact H]. intros E <-. auto. Qed.
Lemma appends_app k L1 : forall p L2 d1 d2, appends k p L1 d1 -> appends k (p + len d1) L2 d2 -> appends k p (L1 ++ L2) (d1 ++ d2).
Proof.
  intros p L2 d1 d2 H1. revert L2 d2. induction H1 as [p|p E L d Hs H IH|p d L d' H IH]; intros L2 d2 H2; simpl app.
  - rewrite len_nil, Z.add_0_r in H2. auto.
  - constructor; auto.
  - rewrite <- app_assoc. apply App_put. apply IH. rewrite len_app, Z.add_assoc in H2. auto.
Qed.
Lemma away_appends k p L : away k L -> appends k p L [].
Proof. induction 1; constructor; auto. Qed.
Lemma appends_away k p L L' d : appends k p L d -> away k L' -> appends k p (L ++ L') d.
Proof. intros. rewrite <- (app_nil_r d). apply appends_app; auto. apply away_appends. auto. Qed.
Lemma away_then k p L L' d : away k L -> appends k p L' d -> appends k p (L ++ L') d.
Proof. intros H1 H2. change d with ([] ++ d). apply appends_app; [apply away_appends; auto|]. rewrite len_nil, Z.add_0_r. auto. Qed.

Lemma upto_away k L n j f : away k L -> upto L n j f k = f k.
Proof.
  intros H. revert n f. induction H as [|E L Hs H IH]; intros n f; [destruct n; auto|].
  assert (X : forall j, act (cut j E) f k = f k /\ act E f k = f k).
  { intros j'. destruct E as [|k'|k' p d]; simpl in *; auto; rewrite ?kupd_other; auto. }
  destruct n; simpl; [apply X|]. rewrite IH. apply (X j).
Qed.
Lemma acts_away k L f : away k L -> acts L f k = f k.
Proof. intros H. rewrite <- (upto_end L (length L) 0 f) by auto. apply upto_away. auto. Qed.

(** How many bytes have been appended. *)
Definition keyb (k : key) (E : effect) (x : nat) : nat :=
  match E with Put k' _ _ => if key_eqb k' k then x else 0%nat | _ => 0%nat end.
Definition size_of (k : key) (E : effect) : nat :=
  match E with Put k' _ d => if key_eqb k' k then length d else 0%nat | _ => 0%nat end.
Fixpoint reach (k : key) (L : list effect) (n j : nat) : nat :=
  match L, n with
  | [], _ => 0%nat
  | E :: _, O => Nat.min j (size_of k E)
  | E :: L, S n => size_of k E + reach k L n j
  end.

Lemma key_eqb_refl k : key_eqb k k = true.
Proof. apply key_eqb_eq. auto. Qed.
Lemma spares_size k E : spares k E -> size_of k E = 0%nat.
Proof.
  destruct E as [|k'|k' p d]; simpl; auto. intros H. destruct (key_eqb k' k) eqn:X; auto.
  apply key_eqb_eq in X. congruence.
Qed.

Lemma reach_mono k L n j n' j' : not_after (At n j) (At n' j') -> (reach k L n j <= reach k L n' j')%nat.
Proof.
  unfold not_after. simpl. revert n n'. induction L as [|E L IH]; intros n n' H; [destruct n, n'; simpl; lia|].
  destruct n as [|n], n' as [|n']; simpl; try lia. specialize (IH n n' ltac:(lia)). lia.
Qed.
Lemma reach_end k p L d n j : appends k p L d -> (length L <= n)%nat -> reach k L n j = length d.
Proof.
  intros H. revert n. induction H as [p|p E L d Hs H IH|p d L d' H IH]; intros n Hn; simpl in *.
  - destruct n; auto.
  - destruct n; [lia|]. rewrite spares_size, IH; auto. lia.
  - destruct n; [lia|]. rewrite key_eqb_refl, IH, app_length; auto. lia.
Qed.
Lemma reach_le k p L d n j : appends k p L d -> (reach k L n j <= length d)%nat.
Proof.
  intros H. rewrite <- (reach_end k p L d (Nat.max n (length L) + 1) 0 H) by lia. apply reach_mono. left. simpl. lia.
Qed.

Lemma upto_appends k : forall p L d, appends k p L d -> forall c f n j, p = len c -> f k = Some c ->
  upto L n j f k = Some (c ++ firstn (reach k L n j) d).
Proof.
  induction 1 as [p|p E L d Hs H IH|p d L d' H IH]; intros c f n j Hp Hf.
  - destruct n; simpl; rewrite ?app_nil_r; auto.
  - assert (Z0 := spares_size k E Hs).
    assert (X : forall j, act (cut j E) f k = f k /\ act E f k = f k).
    { intros j'. destruct E as [|k'|k' p' d']; simpl in *; auto; rewrite ?kupd_other; auto. }
    destruct n; simpl.
    + rewrite Z0, Nat.min_0_r. simpl. rewrite app_nil_r. destruct (X j) as (-> & _). auto.
    + rewrite Z0. simpl. apply IH; auto. destruct (X j) as (_ & ->). auto.
  - subst p. destruct n; simpl; rewrite key_eqb_refl.
    + rewrite kupd_same, Hf, splice_end. f_equal. f_equal.
      destruct (Nat.le_ge_cases j (length d)).
      * rewrite Nat.min_l by auto. rewrite firstn_app. replace (j - length d)%nat with 0%nat by lia. simpl. rewrite app_nil_r. auto.
      * rewrite Nat.min_r by auto. rewrite (firstn_all2 d) by auto. rewrite firstn_app, firstn_all.
        rewrite Nat.sub_diag. simpl. rewrite app_nil_r. auto.
    + rewrite (IH (c ++ d)); [|rewrite len_app; auto|rewrite kupd_same, Hf, splice_end; auto].
      rewrite <- app_assoc. do 2 f_equal. rewrite firstn_app.
      rewrite (firstn_all2 d) by lia. f_equal. f_equal. lia.
Qed.
Lemma acts_appends k L d f c : appends k (len c) L d -> f k = Some c -> acts L f k = Some (c ++ d).
Proof.
  intros H Hf. rewrite <- (upto_end L (length L) 0 f) by auto. rewrite (upto_appends k _ L d H c); auto.
  rewrite (reach_end k _ L d _ _ H) by auto. rewrite firstn_all. auto.
Qed.

(** * The life of a file *)
(** not created, growing with content [T], its beginning overwritten with [h]. *)
Definition growing (k : key) (L : list effect) (T : list Z) : Prop :=
  exists A B, L = A ++ Create k :: B /\ away k A /\ appends k 0 B T.
Definition ended (k : key) (L : list effect) (T h : list Z) : Prop :=
  exists A B C, L = A ++ Create k :: B ++ Put k 0 h :: C /\ away k A /\ appends k 0 B T /\ away k C.

Lemma growing_create k L : away k L -> growing k (L ++ [Create k]) [].
Proof. intros H. exists L, []. split; auto. split; auto. constructor. Qed.
Lemma growing_more k L L' T d : growing k L T -> appends k (len T) L' d -> growing k (L ++ L') (T ++ d).
Proof.
  intros (A & B & -> & HA & HB) H. exists A, (B ++ L'). split; [rewrite <- app_assoc; auto|]. split; auto.
  apply appends_app; auto.
Qed.
Lemma growing_away k L L' T : growing k L T -> away k L' -> growing k (L ++ L') T.
Proof. intros H1 H2. rewrite <- (app_nil_r T). apply growing_more; auto. apply away_appends. auto. Qed.
Lemma away_growing k L L' T : away k L -> growing k L' T -> growing k (L ++ L') T.
Proof. intros H (A & B & -> & HA & HB). exists (L ++ A), B. split; [rewrite <- app_assoc; auto|]. split; auto. apply away_app; auto. Qed.
Lemma growing_end k L T h L' : growing k L T -> away k L' -> ended k (L ++ Put k 0 h :: L') T h.
Proof.
  intros (A & B & -> & HA & HB) H. exists A, B, L'. split; [|auto]. rewrite <- app_assoc. simpl. auto.
Qed.
Lemma ended_away k L L' T h : ended k L T h -> away k L' -> ended k (L ++ L') T h.
Proof.
  intros (A & B & C & -> & HA & HB & HC) H. exists A, B, (C ++ L').
  split; [|split; auto; split; auto; apply away_app; auto]. rewrite <- !app_assoc. simpl. rewrite <- !app_assoc. auto.
Qed.
Lemma away_ended k L L' T h : away k L -> ended k L' T h -> ended k (L ++ L') T h.
Proof.
  intros H (A & B & C & -> & HA & HB & HC). exists (L ++ A), B, C.
  split; [rewrite <- app_assoc; auto|]. split; [apply away_app; auto|auto].
Qed.

(** The content of a file over time: absent until [born], then the first [t]
    bytes of [T], the first [s] of them replaced by those of [h]. *)
Definition timeline (cf : moment -> option (list Z)) (T h : list Z) : Prop :=
  exists (born : moment -> bool) (t s : moment -> nat),
  (forall x y, not_after x y -> (t x <= t y)%nat /\ (s x <= s y)%nat /\ (born x = true -> born y = true)) /\
  (forall x, (t x <= length T)%nat /\ (s x <= length h)%nat /\ (0 < s x -> t x = length T)%nat /\
     (bytes_done x = 0%nat -> s x = 0%nat \/ s x = length h)) /\
  forall x, cf x = if born x then Some (firstn (s x) h ++ skipn (s x) (firstn (t x) T)) else None.


Lemma upto_born k A B f n j : away k A -> f k = None ->
  upto (A ++ Create k :: B) n j f k =
  if (length A <? n)%nat then upto B (n - S (length A)) j (act (Create k) (acts A f)) k else None.
Proof.
  intros HA Hf. destruct (Nat.ltb_spec (length A) n) as [H|H].
  - rewrite upto_app_r by lia. replace (n - length A)%nat with (S (n - S (length A))) by lia. reflexivity.
  - destruct (Nat.eq_dec n (length A)) as [->|].
    + rewrite upto_app_r by lia. rewrite Nat.sub_diag. simpl. rewrite acts_away; auto.
    + rewrite upto_app_l by lia. rewrite upto_away; auto.
Qed.

Lemma growing_timeline k L T f : growing k L T -> f k = None ->
  timeline (fun x => upto L (calls_done x) (bytes_done x) f k) T [].
Proof.
  intros (A & B & -> & HA & HB) Hf.
  exists (fun x => (length A <? calls_done x)%nat),
    (fun x => if (length A <? calls_done x)%nat then reach k B (calls_done x - S (length A)) (bytes_done x) else 0%nat), (fun _ => 0%nat).
  split; [|split].
  - intros [n j] [n' j'] H. unfold not_after in H. simpl in *.
    destruct (Nat.ltb_spec (length A) n); destruct (Nat.ltb_spec (length A) n'); try lia; try (repeat split; auto; lia).
    split; [|auto]. apply reach_mono. unfold not_after. simpl. lia.
  - intros [n j]. simpl. split; [|split; [auto|split; [lia|auto]]].
    destruct (length A <? n)%nat; [|lia]. eapply reach_le; eauto.
  - intros [n j]. simpl. rewrite upto_born by auto. destruct (length A <? n)%nat; auto.
    rewrite (upto_appends k 0 B T HB []); auto. simpl. apply kupd_same.
Qed.

Lemma ended_timeline k L T h f : ended k L T h -> f k = None -> (length h <= length T)%nat ->
  timeline (fun x => upto L (calls_done x) (bytes_done x) f k) T h.
Proof.
  intros (A & B & C & -> & HA & HB & HC) Hf Hh.
  set (m := (S (length A) + length B)%nat).
  exists (fun x => (length A <? calls_done x)%nat),
    (fun x => if (length A <? calls_done x)%nat then reach k B (calls_done x - S (length A)) (bytes_done x) else 0%nat),
    (fun x => if (calls_done x <? m)%nat then 0%nat else if (calls_done x =? m)%nat then Nat.min (bytes_done x) (length h) else length h).
  split; [|split].
  - intros [n j] [n' j'] H. unfold not_after in H. simpl in *. split; [|split].
    + destruct (Nat.ltb_spec (length A) n); destruct (Nat.ltb_spec (length A) n'); try lia.
      apply reach_mono. unfold not_after. simpl. lia.
    + destruct (Nat.ltb_spec n m), (Nat.ltb_spec n' m), (Nat.eqb_spec n m), (Nat.eqb_spec n' m); lia.
    + intros X%Nat.ltb_lt; apply Nat.ltb_lt; lia.
  - intros [n j]. simpl. split; [|split; [|split]].
    + destruct (length A <? n)%nat; [|lia]. eapply reach_le; eauto.
    + destruct (Nat.ltb_spec n m), (Nat.eqb_spec n m); lia.
    + destruct (Nat.ltb_spec n m); [lia|]. intros _. replace (length A <? n)%nat with true by (symmetry; apply Nat.ltb_lt; lia).
      apply (reach_end k 0); auto. lia.
    + intros ->. destruct (Nat.ltb_spec n m), (Nat.eqb_spec n m); auto.
  - intros [n j]. simpl. rewrite upto_born by auto. destruct (Nat.ltb_spec (length A) n) as [Hn|Hn]; auto.
    assert (Hc : act (Create k) (acts A f) k = Some []) by apply kupd_same.
    destruct (Nat.ltb_spec n m) as [Hm|Hm].
    + rewrite upto_app_l by lia. rewrite (upto_appends k 0 B T HB []); auto.
    + rewrite upto_app_r by lia. assert (HT := acts_appends k B T _ [] HB Hc). simpl app in HT.
      set (g := acts B (act (Create k) (acts A f))) in *.
      rewrite (reach_end k 0 B T) by (auto; lia). rewrite firstn_all.
      destruct (Nat.eqb_spec n m) as [->|].
      * replace (m - S (length A) - length B)%nat with 0%nat by lia. simpl. rewrite kupd_same, HT, splice_start.
        rewrite firstn_length. f_equal. f_equal. destruct (Nat.le_ge_cases j (length h)).
        -- rewrite Nat.min_l by auto. auto.
        -- rewrite Nat.min_r by auto. rewrite !firstn_all2; auto.
      * replace (n - S (length A) - length B)%nat with (S (n - S m)) by lia. simpl.
        rewrite upto_away by auto. rewrite kupd_same, HT, splice_start, firstn_all. auto.
Qed.

(** * The writers *)
Section Env.
Variables (b : build) (e : endian) (lim : Z).

Lemma traced_handle_write h d w k p (Q : list effect -> outcome (result unit io_kind * handle) -> world -> Prop) :
  h_stream h = Some (SFile k p) ->
  (forall L h' w', appends k p L d -> only k L -> h_stream h' = Some (SFile k (p + len d)) ->
     h_storage h' = h_storage h -> h_name h' = h_name h -> h_schema h' = h_schema h -> Q L (Ret (Ok tt, h')) w') ->
  (forall L w', Q L Panic w') -> (forall L w', Q L UB w') -> (forall L w', Q L Crash w') ->
  traced (handle_write b h d) w Q.
Proof.
  intros Hs q q1 q2 q3. unfold handle_write. rewrite Hs. apply traced_bind, traced_write_all.
  - intros ->. apply traced_bind, traced_lift. destruct (uadd b (h_size h) (len [])) as [n| | |]; auto.
    apply traced_ret. simpl app. apply q; simpl; auto; try constructor. rewrite len_nil, Z.add_0_r. auto.
  - intros Hd. apply traced_bind, traced_lift. destruct (uadd b (h_size h) (len d)) as [n| | |]; auto.
    apply traced_ret. simpl app. apply q; simpl; auto.
    + rewrite <- (app_nil_r d) at 2. apply App_put. constructor.
    + apply only_put.
Qed.

(** ** External vectors *)
Definition ev_on (v : ext_vec) (k : key) (p : Z) (id : nat) (base : string) : Prop :=
  h_stream (ev_handle v) = Some (SFile k p) /\ h_storage (ev_handle v) = FileStorage id base.

Lemma traced_ev_flush v w k p id base (Q : list effect -> outcome (result unit io_kind * ext_vec) -> world -> Prop) :
  ev_on v k p id base ->
  (forall L d v' w', appends k p L d -> only k L -> ev_on v' k (p + len d) id base -> Q L (Ret (Ok tt, v')) w') ->
  (forall L w', Q L Panic w') -> (forall L w', Q L UB w') -> (forall L w', Q L Crash w') ->
  traced (ev_flush b v) w Q.
Proof.
  intros (H1 & H2) q q1 q2 q3. unfold ev_flush. apply traced_bind, traced_lift.
  destruct (usub b _ _) as [n| | |]; auto. apply traced_bind, traced_lift.
  destruct (slice_range _ _ _) as [d| | |]; auto. apply traced_bind.
  apply (traced_handle_write _ _ _ k p); auto. intros L h' w' A O Hs Hst _ _. apply traced_ret. simpl app.
  rewrite app_nil_r. eapply q; eauto. split; simpl; auto. congruence.
Qed.

Lemma traced_ev_grow s v w k p id base (Q : list effect -> outcome (result Z io_kind * ext_vec) -> world -> Prop) :
  ev_on v k p id base ->
  (forall L d x v' w', appends k p L d -> only k L -> ev_on v' k (p + len d) id base -> Q L (Ret (Ok x, v')) w') ->
  (forall L w', Q L Panic w') -> (forall L w', Q L UB w') -> (forall L w', Q L Crash w') ->
  traced (ev_grow b lim s v) w Q.
Proof.
  intros On q q1 q2 q3. unfold ev_grow. apply traced_bind.
  assert (X : forall L d v' w', appends k p L d -> only k L -> ev_on v' k (p + len d) id base ->
     traced (let old_size := len (ev_data v') in
      let! n := lift (uadd b old_size (s_size s)) in
      let! data := lift (vec_resize (ev_data v') n) in
      let! l := lift (uadd b (ev_len v') 1) in
      let! p := lift (usub b old_size PADDING_SIZE) in
      let! _ := lift (slice_from (whole data) p) in
      mret (Ok p, mkEV data l (ev_handle v'))) w' (fun L2 o2 w2 => Q (L ++ L2) o2 w2)).
  { intros L d v' w' A O On'. cbn zeta. do 5 (apply traced_bind, traced_lift; match goal with |- match ?x with _ => _ end => destruct x end; auto).
    apply traced_ret. simpl app. rewrite app_nil_r. eapply q; eauto. }
  apply traced_if; intros _.
  - apply (traced_ev_flush v w k p id base); [exact On|intros L d v' w' A O On'; apply (X L d v' w'); auto|auto..].
  - apply traced_ret. apply (X [] [] v w); [constructor|constructor|]. rewrite len_nil, Z.add_0_r. auto.
Qed.

Lemma traced_ev_set s sets p0 v w k p id base (Q : list effect -> outcome ext_vec -> world -> Prop) :
  ev_on v k p id base ->
  (forall v' w', ev_on v' k p id base -> Q [] (Ret v') w') ->
  (forall L w', Q L Panic w') -> (forall L w', Q L UB w') -> (forall L w', Q L Crash w') ->
  traced (ev_set b e s sets p0 v) w Q.
Proof.
  intros On q q1 q2 q3. unfold ev_set. apply traced_bind, traced_lift.
  destruct (through_handle _ _ _ _ _ _); auto. apply traced_ret. simpl. apply q. auto.
Qed.


Lemma traced_ev_run s ops : only_grows ops -> forall v w k p id base (Q : list effect -> outcome (list bool * ext_vec) -> world -> Prop),
  ev_on v k p id base ->
  (forall L d fl v' w', appends k p L d -> only k L -> ev_on v' k (p + len d) id base -> Q L (Ret (fl, v')) w') ->
  (forall L w', Q L Panic w') -> (forall L w', Q L UB w') -> (forall L w', Q L Crash w') ->
  traced (ev_run b e lim s ops v) w Q.
Proof.
  induction ops as [|o ops IH]; intros Ho v w k p id base Q On q q1 q2 q3; cbn [ev_run].
  - apply traced_ret. apply (q [] []); try constructor. all: try rewrite len_nil, Z.add_0_r; apply On.
  - destruct o as [sets|f]; [|destruct Ho]. apply traced_bind. unfold ev_step at 1. apply traced_bind.
    apply (traced_ev_grow s v w k p id base); auto. intros L d x v1 w1 A O On1. apply traced_bind.
    apply (traced_ev_set s sets x v1 w1 k (p + len d) id base); auto. intros v2 w2 On2. apply traced_ret. rewrite !app_nil_r.
    apply traced_bind. apply (IH Ho _ _ k (p + len d) id base); auto. intros L2 d2 fl v3 w3 A2 O2 On3. apply traced_ret.
    rewrite app_nil_r. apply (q _ (d ++ d2)).
    + apply appends_app; auto.
    + apply only_app; auto.
    + rewrite len_app, Z.add_assoc. auto.
Qed.

Lemma traced_handle_close h w k p id base (Q : list effect -> outcome (result slice rs_error * handle) -> world -> Prop) :
  h_stream h = Some (SFile k p) -> h_storage h = FileStorage id base ->
  (forall L o w', quiet_log L -> Q (Put k p (zeros 8) :: Quiet :: Put k 0 (le_bytes 8 (h_size h)) :: L) o w') ->
  traced (handle_close b e h) w Q.
Proof.
  intros Hs Hst q. unfold handle_close. rewrite Hs. apply traced_bind, traced_padding. apply traced_bind, traced_seek.
  apply traced_bind, traced_write_size. apply traced_bind. rewrite Hst. apply traced_read. intros L o w' HL _.
  destruct o as [d| | |]; [apply traced_ret; simpl app; rewrite app_nil_r| | |]; simpl app; apply q; auto.
Qed.

Lemma traced_drop c h w (Q : list effect -> outcome unit -> world -> Prop) :
  (forall o, Q [] o w) -> traced (handle_drop c h) w Q.
Proof.
  intros q. unfold handle_drop. apply traced_if; intros _.
  - apply (traced_silent _ w Panic w); auto.
  - apply traced_ret. auto.
Qed.

(** What closing appends and where it writes the size. *)
Definition closing (k : key) (p : Z) (L : list effect) : Prop :=
  exists B d n C, L = B ++ Put k 0 (le_bytes 8 n) :: C /\ appends k p B (d ++ zeros 8) /\ only k B /\ quiet_log C.

Lemma traced_ev_close v w k p id base (Q : list effect -> outcome (result view rs_error) -> world -> Prop) :
  ev_on v k p id base ->
  (forall L o w', closing k p L -> Q L o w') ->
  (forall L w', Q L Panic w') -> (forall L w', Q L UB w') -> (forall L w', Q L Crash w') ->
  traced (ev_close b e v) w Q.
Proof.
  intros On q q1 q2 q3. unfold ev_close. apply traced_bind. apply (traced_ev_flush v w k p id base); auto.
  intros L d v' w' A O (Hs & Hst). apply traced_bind. apply (traced_handle_close _ _ k (p + len d) id base); auto.
  intros L2 o2 w2 HL. assert (X : closing k p (L ++ Put k (p + len d) (zeros 8) :: Quiet :: Put k 0 (le_bytes 8 (h_size (ev_handle v'))) :: L2)).
  { exists (L ++ [Put k (p + len d) (zeros 8); Quiet]), d, (h_size (ev_handle v')), L2.
    split; [rewrite <- app_assoc; auto|]. split; [|split; auto].
    - apply appends_app; auto. rewrite <- (app_nil_r (zeros 8)). apply App_put. apply App_other; [exact I|]. constructor.
    - apply only_app; auto. constructor; [right; eauto|repeat constructor]. }
  destruct o2 as [r| | |]; auto. apply traced_bind. apply traced_drop. intros o.
  destruct o as [u| | |]; auto. apply traced_ret. simpl app. rewrite !app_nil_r. apply q. auto.
Qed.

(** The schema stream, the data stream and the handle. *)
Definition born (ks kd : key) (schema : list Z) (L : list effect) : Prop :=
  growing ks L schema /\ growing kd L (zeros 8) /\ Forall (fun E => spares ks E -> spares kd E -> E = Quiet) L.

Lemma traced_create_handle id base name schema w (Q : list effect -> outcome (result handle io_kind) -> world -> Prop) :
  let st := FileStorage id base in let kd := res_key st name in let ks := res_key st (schema_name name) in
  kd <> ks ->
  (forall L h w', born ks kd schema L -> h_stream h = Some (SFile kd 8) -> h_storage h = st -> Q L (Ret (Ok h)) w') ->
  (forall L k w', Q L (Ret (Er k)) w') ->
  traced (create_handle b e st name schema) w Q.
Proof.
  intros st kd ks N q q1. unfold create_handle, mtry. apply traced_bind. apply traced_create.
  2:{ intros L k w' _ _. apply traced_ret. apply q1. }
  intros L1 w1 HL1 F1. apply traced_bind.
  assert (X : forall L w2, L = [] /\ schema = [] \/ L = [Put ks 0 schema] ->
    traced (mbind (create_output_stream st name) (fun r => match r with Ok s => handle_try_new b e st name schema s | Er err => mret (Er err) end)) w2
     (fun L2 o2 w3 => Q ((L1 ++ [Create ks]) ++ L ++ L2) o2 w3)).
  { intros L w2 HL. apply traced_bind. apply traced_create.
    2:{ intros L' k w' _ _. apply traced_ret. apply q1. }
    intros L2 w3 HL2 F2. unfold handle_try_new, stry. apply traced_bind. apply traced_write_size. apply traced_ret.
    simpl app. apply q; auto.
    assert (AL : appends ks 0 L schema).
    { destruct HL as [(-> & ->)| ->]; [constructor|]. rewrite <- (app_nil_r schema) at 2. apply App_put. constructor. }
    assert (OL : only ks L).
    { destruct HL as [(-> & ->)| ->]; [constructor|apply only_put]. }
    fold kd. split; [|split].
    - apply (growing_more ks _ _ [] schema); [apply growing_create; apply quiet_away; auto|]. rewrite len_nil.
      apply appends_away; auto. apply away_app; [|repeat constructor; simpl; auto]. apply away_app; [apply quiet_away; auto|].
      repeat constructor. simpl. auto.
    - rewrite !app_assoc. apply (growing_more kd _ _ [] (zeros 8)).
      + apply growing_create. apply away_app; [|apply quiet_away; auto]. apply away_app; [|eapply only_away; eauto].
        apply away_app; [apply quiet_away; auto|]. repeat constructor. simpl. auto.
      + rewrite len_nil. rewrite <- (app_nil_r (zeros 8)). apply App_put. constructor.
    - repeat (apply Forall_app; split).
      + eapply Forall_impl; [|exact HL1]. auto.
      + repeat constructor. simpl. tauto.
      + eapply Forall_impl; [|exact OL]. intros E [->|(p' & d' & ->)]; auto. simpl. tauto.
      + eapply Forall_impl; [|exact HL2]. auto.
      + repeat constructor. simpl. tauto.
      + repeat constructor. simpl. tauto. }
  unfold write_schema, stry. apply traced_bind. fold ks. apply traced_write_all.
  - intros Hn. apply traced_ret. simpl app. apply (X [] w1). auto.
  - intros Hn. apply traced_ret. apply X. auto.
Qed.

Lemma closing_ended k L L' T : growing k L T -> closing k (len T) L' -> exists d n,
  ended k (L ++ L') (T ++ d ++ zeros 8) (le_bytes 8 n).
Proof.
  intros G (B & d & n & C & -> & HB & _ & HC). exists d, n. rewrite app_assoc. apply growing_end.
  - apply growing_more; auto.
  - apply quiet_away. auto.
Qed.
Lemma closing_away k k' p L : closing k p L -> k <> k' -> away k' L.
Proof.
  intros (B & d & n & C & -> & _ & HB & HC) N. apply away_app; [eapply only_away; eauto|].
  constructor; [exact N|apply quiet_away; auto].
Qed.

(** What a whole session does to the two files. *)
Definition sealed_log (kd ks : key) (schema : list Z) (L : list effect) : Prop :=
  growing ks L schema /\ exists d n, ended kd L (zeros 8 ++ d ++ zeros 8) (le_bytes 8 n).

Lemma traced_ev_session s id base name schema ops w : only_grows ops ->
  let st := FileStorage id base in let kd := res_key st name in let ks := res_key st (schema_name name) in
  kd <> ks ->
  traced (ev_session b e lim s st name schema ops) w (fun L o w' => forall r, o = Ret (Ok r) -> sealed_log kd ks schema L).
Proof.
  intros Ho st kd ks N. unfold ev_session, mtry. apply traced_bind. unfold create_external_vector, mtry.
  apply traced_bind. apply traced_create_handle; auto.
  2:{ intros L k w'. apply traced_ret. apply traced_ret. congruence. }
  intros L0 h w1 (B1 & B2 & _) Hs Hst. apply traced_ret. apply traced_bind.
  apply (traced_ev_run s ops Ho _ _ kd 8 id base); try (intros; discriminate); [split; auto|].
  intros L1 d fl v w2 A1 O1 On1. apply traced_bind. apply (traced_ev_close v w2 kd (8 + len d) id base); try (intros; discriminate); auto.
  intros L2 o2 w3 Cl. destruct o2 as [c| | |]; try discriminate. apply traced_ret. intros r _.
  rewrite !app_nil_r. rewrite app_assoc. split.
  - apply growing_away; [apply growing_away; auto; eapply only_away; eauto|]. eapply closing_away; eauto.
  - assert (G : growing kd (L0 ++ L1) (zeros 8 ++ d)) by (apply growing_more; auto).
    destruct (closing_ended kd (L0 ++ L1) L2 (zeros 8 ++ d) G) as (d' & n & X); [rewrite len_app; exact Cl|].
    exists (d ++ d'), n. rewrite <- !app_assoc in *. exact X.
Qed.

(** ** Whole resources *)
Lemma traced_to_stream k data w (Q : list effect -> outcome (result unit io_kind) -> world -> Prop) :
  (forall L w', appends k 0 L (resource_bytes data) -> only k L -> Q L (Ret (Ok tt)) w') ->
  traced (write_to_stream b e data (SFile k 0)) w Q.
Proof.
  intros q. unfold write_to_stream, stry. apply traced_bind, traced_write_size. apply traced_bind.
  assert (L8 := len_le_bytes 8 (len data)). change (Z.of_nat 8) with 8 in L8.
  assert (H8 : forall L, appends k 8 L (data ++ zeros 8) -> appends k 0 (Put k 0 (le_bytes 8 (len data)) :: L) (resource_bytes data)).
  { intros L H. unfold resource_bytes, framed. apply App_put. rewrite L8. exact H. }
  assert (HP : forall p, appends k p [Put k p (zeros 8)] (zeros 8)).
  { intros p. rewrite <- (app_nil_r (zeros 8)) at 2. apply App_put. constructor. }
  apply traced_write_all; intros Hn; apply traced_bind, traced_padding, traced_ret; apply q.
  - apply H8. rewrite Hn. simpl app. apply HP.
  - apply only_app with (L1 := [_]); [apply only_put|]. apply only_put.
  - apply H8. rewrite app_nil_r. apply App_put. apply HP.
  - apply only_app with (L1 := [_]); [apply only_put|]. apply only_app with (L1 := [_]); apply only_put.
Qed.
Lemma traced_schema k schema w (Q : list effect -> outcome (result unit io_kind) -> world -> Prop) :
  (forall L w', appends k 0 L schema -> only k L -> Q L (Ret (Ok tt)) w') ->
  traced (write_schema schema (SFile k 0)) w Q.
Proof.
  intros q. unfold write_schema, stry. apply traced_bind. apply traced_write_all; intros Hn; apply traced_ret; apply q.
  - rewrite Hn. constructor.
  - constructor.
  - rewrite <- (app_nil_r schema) at 2. apply App_put. constructor.
  - apply only_put.
Qed.

Lemma traced_write id base name schema data w :
  let st := FileStorage id base in let kd := res_key st name in let ks := res_key st (schema_name name) in
  kd <> ks ->
  traced (write b e st name schema data) w (fun L o w' => o = Ret (Ok tt) ->
    growing ks L schema /\ growing kd L (resource_bytes data) /\ forall k, kd <> k -> ks <> k -> away k L).
Proof.
  intros st kd ks N. unfold write, mtry. apply traced_bind. apply traced_create.
  2:{ intros L k w' _ _. apply traced_ret. congruence. }
  intros L1 w1 HL1 F1. fold kd. apply traced_bind. apply traced_to_stream. intros L2 w2 A2 O2. apply traced_bind. apply traced_create.
  2:{ intros L k w' _ _. apply traced_ret. congruence. }
  intros L3 w3 HL3 F3. fold ks. apply traced_schema. intros L4 w4 A4 O4 _.
  assert (G : growing kd ((L1 ++ [Create kd]) ++ L2) (resource_bytes data)).
  { apply (growing_more kd _ _ [] (resource_bytes data)); auto. apply growing_create, quiet_away. auto. }
  rewrite app_assoc. split; [|split].
  - rewrite !app_assoc. apply (growing_more ks _ _ [] schema); auto. apply growing_create.
    apply away_app; [|apply quiet_away; auto]. apply away_app; [|apply (only_away kd); auto].
    apply away_app; [apply quiet_away; auto|]. repeat constructor. exact N.
  - apply growing_away; auto. apply away_app; [|apply (only_away ks); [exact O4|exact (fun X => N (eq_sym X))]].
    apply away_app; [apply quiet_away; auto|]. constructor; [exact (fun X => N (eq_sym X))|constructor].
  - intros k N1 N2. repeat apply away_app; try (apply quiet_away; assumption).
    + constructor; [exact N1|constructor].
    + eapply only_away; eauto.
    + constructor; [exact N2|constructor].
    + eapply only_away; eauto.
Qed.

(** ** Multivectors *)
Definition mv_on (v : multi_vec) (ki kd : key) (pi pd : Z) (id : nat) (base : string) : Prop :=
  ev_on (mv_index v) ki pi id base /\ h_stream (mv_handle v) = Some (SFile kd pd) /\ h_storage (mv_handle v) = FileStorage id base.
(** Writes to the two files only. *)
Definition both (ki kd : key) (L : list effect) : Prop :=
  Forall (fun E => E = Quiet \/ (exists p d, E = Put ki p d) \/ exists p d, E = Put kd p d) L.
Lemma both_app ki kd L1 L2 : both ki kd L1 -> both ki kd L2 -> both ki kd (L1 ++ L2).
Proof. intros. apply Forall_app. auto. Qed.
Lemma only_both_l ki kd L : only ki L -> both ki kd L.
Proof. intros H. eapply Forall_impl; [|exact H]. intros E [->|?]; auto. Qed.
Lemma only_both_r ki kd L : only kd L -> both ki kd L.
Proof. intros H. eapply Forall_impl; [|exact H]. intros E [->|?]; auto. Qed.
Lemma both_away ki kd k L : both ki kd L -> ki <> k -> kd <> k -> away k L.
Proof. intros H N1 N2. eapply Forall_impl; [|exact H]. intros E [->|[(p & d & ->)|(p & d & ->)]]; simpl; auto. Qed.

Definition mv_more (ki kd : key) (pi pd : Z) (id : nat) (base : string) (L : list effect) (v' : multi_vec) : Prop :=
  exists di dd, appends ki pi L di /\ appends kd pd L dd /\ both ki kd L /\
    mv_on v' ki kd (pi + len di) (pd + len dd) id base.

Section Keys.
Variables (ki kd : key) (id : nat) (base : string).
Hypothesis N : ki <> kd.

Lemma mv_more_nil pi pd v : mv_on v ki kd pi pd id base -> mv_more ki kd pi pd id base [] v.
Proof. intros H. exists [], []. rewrite len_nil, !Z.add_0_r. repeat split; try constructor; apply H. Qed.

Lemma traced_mv_flush v w pi pd (Q : list effect -> outcome (result unit io_kind * multi_vec) -> world -> Prop) :
  mv_on v ki kd pi pd id base ->
  (forall L v' w', mv_more ki kd pi pd id base L v' -> Q L (Ret (Ok tt, v')) w') ->
  (forall L w', Q L Panic w') -> (forall L w', Q L UB w') -> (forall L w', Q L Crash w') ->
  traced (mv_flush b v) w Q.
Proof.
  intros (Hi & Hs & Hst) q q1 q2 q3. unfold mv_flush. apply traced_bind, traced_lift.
  destruct (usub b _ _) as [n| | |]; auto. apply traced_bind, traced_lift.
  destruct (slice_range _ _ _) as [d| | |]; auto. apply traced_bind.
  apply (traced_handle_write _ _ _ kd pd); auto. intros L h' w' A O Hs' Hst' _ _. apply traced_bind, traced_lift.
  destruct (uadd b _ _); auto. apply traced_ret. simpl app. rewrite !app_nil_r. apply q.
  exists [], (sl_bytes d). rewrite len_nil, Z.add_0_r. split; [apply away_appends; apply (only_away kd); auto|].
  split; auto. split; [apply only_both_r; auto|]. split; auto. split; simpl; congruence.
Qed.

Lemma traced_mv_index size bits v w pi pd (Q : list effect -> outcome (result unit io_kind * multi_vec) -> world -> Prop) :
  mv_on v ki kd pi pd id base ->
  (forall L v' w', mv_more ki kd pi pd id base L v' -> Q L (Ret (Ok tt, v')) w') ->
  (forall L w', Q L Panic w') -> (forall L w', Q L UB w') -> (forall L w', Q L Crash w') ->
  traced (mv_add_to_index b e lim size bits v) w Q.
Proof.
  intros (Hi & Hs & Hst) q q1 q2 q3. unfold mv_add_to_index. apply traced_bind.
  apply (traced_ev_grow _ _ _ ki pi id base); auto. intros L d x i w1 A O On. do 2 (apply traced_bind, traced_lift; destruct (_ b _ _); auto).
  apply traced_bind. apply (traced_ev_set _ _ _ _ _ ki (pi + len d) id base); auto. intros i' w2 On'. apply traced_ret.
  simpl app. rewrite !app_nil_r. apply q. exists d, []. rewrite len_nil, Z.add_0_r. split; auto.
  split; [apply away_appends; apply (only_away ki); auto|]. split; [apply only_both_l; auto|]. split; auto.
Qed.

Lemma mv_more_app pi pd L1 v1 L2 v2 : 
  mv_more ki kd pi pd id base L1 v1 ->
  (forall pi' pd', mv_on v1 ki kd pi' pd' id base -> mv_more ki kd pi' pd' id base L2 v2) ->
  mv_more ki kd pi pd id base (L1 ++ L2) v2.
Proof.
  intros (di & dd & A1 & A2 & A3 & On) H. destruct (H _ _ On) as (di' & dd' & B1 & B2 & B3 & On').
  exists (di ++ di'), (dd ++ dd'). split; [apply appends_app; auto|]. split; [apply appends_app; auto|].
  split; [apply both_app; auto|]. rewrite !len_app, !Z.add_assoc. auto.
Qed.


Lemma traced_mv_run size bits ts ops : only_mgrows ops -> forall v w pi pd (Q : list effect -> outcome (list bool * multi_vec) -> world -> Prop),
  mv_on v ki kd pi pd id base ->
  (forall L fl v' w', mv_more ki kd pi pd id base L v' -> Q L (Ret (fl, v')) w') ->
  (forall L w', Q L Panic w') -> (forall L w', Q L UB w') -> (forall L w', Q L Crash w') ->
  traced (mv_run b e lim size bits ts ops v) w Q.
Proof.
  induction ops as [|o ops IH]; intros Ho v w pi pd Q On q q1 q2 q3; cbn [mv_run].
  - apply traced_ret. apply q. apply mv_more_nil. auto.
  - destruct o as [items|f]; [|destruct Ho]. apply traced_bind. unfold mv_step at 1. apply traced_bind.
    assert (Rest : forall L1 v1 w1, mv_more ki kd pi pd id base L1 v1 ->
      traced (let! v := mv_add b e ts items v1 in mret (true, v)) w1 (fun L2 o w2 =>
        match o with
        | Ret a => traced (let! y := mv_run b e lim size bits ts ops (snd a) in mret (fst a :: fst y, snd y)) w2 (fun L3 o3 w3 => Q ((L1 ++ L2) ++ L3) o3 w3)
        | Panic => Q (L1 ++ L2) Panic w2 | UB => Q (L1 ++ L2) UB w2 | Crash => Q (L1 ++ L2) Crash w2
        end)).
    { intros L1 v1 w1 M1. apply traced_bind. unfold mv_add. apply traced_bind, traced_lift.
      destruct (items_add _ _ _ _ _) as [data| | |]; auto. apply traced_ret. apply traced_ret. simpl app. rewrite app_nil_r.
      destruct M1 as (di & dd & A1 & A2 & A3 & On1). apply traced_bind.
      apply (IH Ho _ _ (pi + len di) (pd + len dd)); auto. intros L3 fl v3 w3 (di' & dd' & B1 & B2 & B3 & On3). apply traced_ret. rewrite app_nil_r.
      apply q. exists (di ++ di'), (dd ++ dd'). split; [apply appends_app; auto|]. split; [apply appends_app; auto|].
      split; [apply both_app; auto|]. rewrite !len_app, !Z.add_assoc. auto. }
    unfold mv_grow. apply traced_bind.
    assert (Idx : forall L1 v1 w1, mv_more ki kd pi pd id base L1 v1 ->
      traced (mv_add_to_index b e lim size bits v1) w1 (fun L2 o w2 =>
       match o with
       | Ret (Ok _, v2) => mv_more ki kd pi pd id base (L1 ++ L2) v2
       | Ret (Er _, _) => False
       | _ => True end)).
    { intros L1 v1 w1 M1. assert (M1' := M1). destruct M1' as (di & dd & A1 & A2 & A3 & On1).
      apply (traced_mv_index _ _ _ _ (pi + len di) (pd + len dd)); auto.
      intros L2 v2 w2 (di' & dd' & B1 & B2 & B3 & On3). exists (di ++ di'), (dd ++ dd'). split; [apply appends_app; auto|]. split; [apply appends_app; auto|].
      split; [apply both_app; auto|]. rewrite !len_app, !Z.add_assoc. auto. }
    apply traced_if; intros _.
    + apply (traced_mv_flush v w pi pd); auto. intros L1 v1 w1 M1. eapply traced_conseq; [apply (Idx L1 v1 w1 M1)|].
      intros L2 o w2 H. destruct o as [[[u|k] v2]| | |]; try contradiction; auto.
    + apply traced_ret. eapply traced_conseq; [apply (Idx [] v w); apply mv_more_nil; auto|].
      intros L2 o w2 H. destruct o as [[[u|k] v2]| | |]; try contradiction; auto.
Qed.

(** Closing a multivector: index first, then the data. *)
Lemma traced_mv_close size bits v w pi pd (Q : list effect -> outcome (result (view * slice) rs_error) -> world -> Prop) :
  mv_on v ki kd pi pd id base ->
  (forall B di dd C1 C2 nd w' r, appends ki pi B di -> appends kd pd B dd -> both ki kd B ->
     closing ki (pi + len di) C1 -> quiet_log C2 ->
     Q (B ++ C1 ++ Put kd (pd + len dd) (zeros 8) :: Quiet :: Put kd 0 (le_bytes 8 nd) :: C2) (Ret (Ok r)) w') ->
  (forall L x w', Q L (Ret (Er x)) w') ->
  (forall L w', Q L Panic w') -> (forall L w', Q L UB w') -> (forall L w', Q L Crash w') ->
  traced (mv_close b e lim size bits v) w Q.
Proof.
  intros On q q0 q1 q2 q3. unfold mv_close. apply traced_bind.
  apply (traced_mv_index size bits v w pi pd); auto. intros L1 v1 w1 (di1 & dd1 & A1 & A2 & A3 & On1).
  apply traced_bind. apply (traced_mv_flush v1 w1 (pi + len di1) (pd + len dd1)); auto.
  intros L2 v2 w2 (di2 & dd2 & B1 & B2 & B3 & On2). destruct On2 as (Oi & Os & Ost).
  apply traced_bind. apply (traced_ev_close _ _ ki (pi + len di1 + len di2) id base); auto.
  intros L3 o3 w3 Cl. destruct o3 as [[iv|x]| | |]; auto.
  2:{ apply traced_bind. apply traced_drop. intros o. destruct o; auto. apply traced_ret. auto. }
  apply traced_bind. apply (traced_handle_close _ _ kd (pd + len dd1 + len dd2) id base); auto.
  intros L4 o4 w4 HL4. destruct o4 as [[r h']| | |]; auto. apply traced_bind. apply traced_drop. intros o. destruct o; auto.
  simpl fst. destruct r as [d|x]; apply traced_ret; auto. simpl app. rewrite !app_nil_r.
  rewrite app_assoc.
  assert (Ei : pi + len di1 + len di2 = pi + len (di1 ++ di2)) by (rewrite len_app; lia).
  assert (Ed : pd + len dd1 + len dd2 = pd + len (dd1 ++ dd2)) by (rewrite len_app; lia).
  rewrite Ei in Cl. rewrite Ed. apply (q (L1 ++ L2) (di1 ++ di2) (dd1 ++ dd2)); auto.
  - apply appends_app; auto.
  - apply appends_app; auto.
  - apply both_app; auto.
Qed.
End Keys.

Lemma both_flip k1 k2 L : both k1 k2 L -> both k2 k1 L.
Proof. intros H. eapply Forall_impl; [|exact H]. intros E [->|[?|?]]; auto. Qed.

Lemma born_away ks kd schema L k : born ks kd schema L -> ks <> k -> kd <> k -> away k L.
Proof.
  intros (_ & _ & H) N1 N2. eapply Forall_impl; [|exact H]. intros E X.
  destruct E as [|k'|k' p d]; simpl in *; auto; intros ->; apply not_eq_sym in N1; apply not_eq_sym in N2; specialize (X N1 N2); discriminate.
Qed.

(** The data are complete, but for padding and size, before the size of the index
    is written. *)
Definition index_last (kd ki : key) (L : list effect) : Prop :=
  exists A E C d n I, L = A ++ E :: C /\ spares kd E /\ growing kd A (zeros 8 ++ d) /\ growing ki A (zeros 8 ++ I) /\
    ended kd L (zeros 8 ++ d ++ zeros 8) (le_bytes 8 n).

Lemma traced_mv_session size bits ts id base name schema ops w : only_mgrows ops ->
  let st := FileStorage id base in
  let kd := res_key st name in let ks := res_key st (schema_name name) in
  let ki := res_key st (index_name name) in let kis := res_key st (schema_name (index_name name)) in
  kd <> ks -> ki <> kis -> kd <> ki -> kd <> kis -> ks <> ki -> ks <> kis ->
  traced (mv_session b e lim size bits ts st name schema ops) w (fun L o w' => forall fl r, o = Ret (Ok (fl, Ok r)) ->
    sealed_log kd ks schema L /\ sealed_log ki kis (index_schema schema) L /\ index_last kd ki L).
Proof.
  intros Ho st kd ks ki kis N1 N2 N3 N4 N5 N6. unfold mv_session, mtry. apply traced_bind. unfold create_multi_vector, mtry.
  apply traced_bind. unfold create_external_vector, mtry. apply traced_bind. apply traced_create_handle; auto.
  2:{ intros L k w'. repeat apply traced_ret. discriminate. }
  intros L1 h1 w1 B1 Hs1 Hst1. apply traced_ret. rewrite app_nil_r. apply traced_bind. apply traced_create_handle; auto.
  2:{ intros L k w'. apply traced_bind. apply traced_drop. intros o. destruct o; try discriminate. repeat apply traced_ret. discriminate. }
  intros L2 h2 w2 B2 Hs2 Hst2. apply traced_ret. rewrite app_nil_r. apply traced_bind.
  assert (N3' : ki <> kd) by (intros X; apply N3; symmetry; exact X).
  apply (traced_mv_run ki kd id base N3' size bits ts ops Ho _ _ 8 8); try (intros; discriminate).
  { split; [split; auto|split; auto]. }
  intros L3 fl v w3 (di & dd & A1 & A2 & A3 & On). apply traced_bind.
  apply (traced_mv_close ki kd id base N3' size bits v w3 (8 + len di) (8 + len dd)); try (intros; discriminate); auto.
  2:{ intros L x w'. apply traced_ret. discriminate. }
  intros B di' dd' C1 C2 nd w4 r D1 D2 D3 Cl HC2. destruct r as [iv d]. apply traced_ret. intros fl' r' _.
  rewrite !app_nil_r. rewrite !app_assoc.
  assert (W1 : forall k, kis <> k -> ki <> k -> away k L1) by (intros; eapply born_away; eauto).
  assert (W2 : forall k, ks <> k -> kd <> k -> away k L2) by (intros; eapply born_away; eauto).
  assert (W3 : forall k, ki <> k -> kd <> k -> away k (L3 ++ B)) by (intros; apply away_app; eapply both_away; eauto).
  assert (W4 : forall k, kd <> k -> away k (Put kd (8 + len dd + len dd') (zeros 8) :: Quiet :: Put kd 0 (le_bytes 8 nd) :: C2)).
  { intros k H. constructor; [exact H|]. constructor; [exact I|]. constructor; [exact H|]. apply quiet_away. auto. }
  destruct B1 as (Gis & Gi & _). destruct B2 as (Gs & Gd & _).
  assert (M3 : forall k, kd <> k -> k <> kd) by (intros k H X; apply H; symmetry; exact X).
  assert (Hd : let L := (((((L1 ++ L2) ++ L3) ++ B) ++ C1) ++ Put kd (8 + len dd + len dd') (zeros 8) :: Quiet :: Put kd 0 (le_bytes 8 nd) :: C2) in
    ended kd L (zeros 8 ++ (dd ++ dd') ++ zeros 8) (le_bytes 8 nd)).
  { cbn zeta. rewrite <- (app_assoc _ L3).
    assert (G : growing kd ((((L1 ++ L2) ++ L3 ++ B) ++ C1) ++ [Put kd (8 + len dd + len dd') (zeros 8); Quiet]) (zeros 8 ++ (dd ++ dd') ++ zeros 8)).
    { rewrite (app_assoc (zeros 8)). apply growing_more.
      - apply growing_away; [|eapply closing_away; eauto]. apply growing_more.
        + apply away_growing; [apply W1; intros X; [apply N4|apply N3]; symmetry; exact X|exact Gd].
        + apply appends_app; auto.
      - rewrite !len_app. replace (len (zeros 8) + (len dd + len dd')) with (8 + len dd + len dd') by (rewrite len_zeros; lia).
        rewrite <- (app_nil_r (zeros 8)) at 2. apply App_put. apply App_other; [exact I|constructor]. }
    assert (X := growing_end kd _ _ (le_bytes 8 nd) C2 G (quiet_away kd C2 HC2)). rewrite <- (app_assoc _ [_; _]) in X. exact X. }
  assert (Gi' : growing ki ((L1 ++ L2) ++ L3 ++ B) (zeros 8 ++ di ++ di')).
  { apply growing_more; [apply growing_away; auto|]. apply appends_app; auto. }
  split; [split|split; [split|]].
  - (* schema of the data *)
    apply growing_away; [|apply W4; auto]. apply growing_away; [|eapply closing_away; eauto; intros X; apply N5; symmetry; exact X].
    rewrite <- (app_assoc _ L3). apply growing_away; [|apply W3; auto; intros X; apply N5; symmetry; exact X].
    apply away_growing; [apply W1; intros X; [apply N6|apply N5]; symmetry; exact X|exact Gs].
  - (* data *)
    exists (dd ++ dd'), nd. exact Hd.
  - (* schema of the index *)
    apply growing_away; [|apply W4; auto]. apply growing_away; [|eapply closing_away; eauto].
    rewrite <- (app_assoc _ L3). apply growing_away; [|apply W3; auto].
    apply growing_away; auto.
  - (* index *)
    rewrite <- (app_assoc _ L3).
    destruct (closing_ended ki _ C1 _ Gi') as (d' & n & X).
    { rewrite !len_app, len_zeros by lia. replace (8 + (len di + len di')) with (8 + len di + len di') by lia. exact Cl. }
    exists ((di ++ di') ++ d'), n. apply ended_away; [|apply W4; auto]. rewrite <- !app_assoc in *. exact X.
  - (* the order *)
    assert (AC := closing_away ki kd _ C1 Cl N3').
    destruct C1 as [|E C1]; [exfalso; destruct Cl as (B0 & ? & ? & ? & X & _); destruct B0; discriminate|]. inversion AC; subst.
    exists ((L1 ++ L2) ++ L3 ++ B), E, (C1 ++ Put kd (8 + len dd + len dd') (zeros 8) :: Quiet :: Put kd 0 (le_bytes 8 nd) :: C2), (dd ++ dd'), nd, (di ++ di').
    split; [rewrite <- !app_assoc; auto|]. split; auto. split; [|split; auto]. apply growing_more.
    + apply away_growing; [apply W1; intros X; [apply N4|apply N3]; symmetry; exact X|exact Gd].
    + apply appends_app; auto.
Qed.
End Env.
