(** A close that reports success on a target of any width did what the code for
    64 bits does: what was written is counted by the length of the stream, and
    the check at the end of close compares that with a [usize]. *)
From Verif Require Import Base BaseFacts Codec CodecSpec CodecFacts Structs StructsSpec StructsFacts Views ViewsSpec ViewsFacts.
From Verif Require Import Storage PathFacts StorageSpec StorageFacts StorageMore StorageUse Writers WritersSpec HandleFacts EncodeFacts.
From Verif Require Import ElsewhereFacts ExtVecFacts ExtVecUse MultiViews MultiSpec MultiViewFacts MultiViewUse MultiVecFacts MultiVecUse BufferFacts.
From Verif Require Import Width WidthFacts WidthWriters WidthVectors WidthFit WidthArchives WidthArchFacts WidthBuilders WidthBuildFacts WidthRuns.
From Verif Require ConcFacts WidthVecFacts BuilderFacts.
Local Open Scope list_scope.
Local Open Scope Z_scope.
Local Arguments firstn : simpl never.
Local Arguments skipn : simpl never.

Section Width.
Variable W : Z.
Hypothesis HW : 8 <= W <= 64.
Variables (b : build) (e : endian) (lim : Z).

Lemma pows : 256 <= 2 ^ W /\ 2 ^ W <= usize_limit /\ isize_max_w W < 2 ^ W /\ isize_max_w W + isize_max_w W < 2 ^ W /\ isize_max_w W <= isize_max /\ isize_max < usize_limit.
Proof.
  destruct (pow_w W HW) as (P1 & P2). destruct (WidthFit.bounds W ltac:(lia)) as (A & B & C & D & E). unfold isize_max_w in *. lia.
Qed.
Ltac pw := pose proof pows as (P1 & P2 & P3 & P4 & P5 & P6).
Lemma wrap_range x y : wrap_w W b x = Ret y -> 0 <= y < 2 ^ W /\ (0 <= x < 2 ^ W -> y = x).
Proof.
  pw. unfold wrap_w. destruct ((0 <=? x) && (x <? 2 ^ W)) eqn:E.
  - intros H. injection H as <-. lia.
  - destruct b; [discriminate|]. intros H. injection H as <-. split; [apply Z.mod_pos_bound; lia|lia].
Qed.

(** * Part A: bytes in a stream *)
(** An open handle whose stream holds at least the header and [T] bytes. *)
Definition grown (st : storage) (name : string) (h : handle) (w : world) (T : Z) : Prop :=
  exists s c, h_stream h = Some s /\ h_storage h = st /\ h_name h = name /\ cell_of s = cell_at st name /\
    at_pos s w c (len c) /\ 8 + T <= len c /\ uncached st name w.

Lemma writing_grown st name schema h w D c : writing st name schema h w D c -> grown st name h w (len D).
Proof.
  intros (s & E & H1 & H2 & _ & _ & C & A & (_ & L & _) & _ & U & _). exists s, c. exact (conj E (conj H1 (conj H2 (conj C (conj A (conj L U)))))).
Qed.
Lemma grown_intact st name h w w' T : intact st name w w' -> grown st name h w T -> grown st name h w' T.
Proof.
  intros I (s & c & E & H1 & H2 & C & A & L & U). exists s, c. refine (conj E (conj H1 (conj H2 (conj C _)))).
  split; [eapply intact_at_pos; eauto|]. split; [exact L|]. eapply intact_uncached; eauto.
Qed.
Lemma grown_touches P st name h w w' T : touches P w w' -> ~ P (cell_at st name) -> grown st name h w T -> grown st name h w' T.
Proof.
  intros TT N (s & c & E & H1 & H2 & C & A & L & U). exists s, c. refine (conj E (conj H1 (conj H2 (conj C _)))).
  split; [eapply at_pos_touches; eauto; congruence|]. split; [exact L|]. eapply uncached_touches; eauto.
Qed.

Lemma grown_write st name h w T d r h' w' : grown st name h w T -> handle_write_w W b h d w = (Ret (r, h'), w') ->
  step (eq (cell_at st name)) w w' /\ grown st name h' w' (match r with Ok _ => T + len d | Er _ => T end).
Proof.
  intros (s & c & E & H1 & H2 & C & A & L & U) R. unfold handle_write_w in R. rewrite E in R.
  apply bind_ret in R as (x & w1 & R1 & R).
  destruct (puts_end _ d s w c _ w1 (write_all_puts d) A R1) as (S1 & X). rewrite C in S1.
  assert (S : step (eq (cell_at st name)) w w1) by apply S1.
  assert (U1 : uncached st name w1) by (eapply uncached_caches; [apply S|exact U]).
  destruct X as [(s' & Ex & C' & A')|(F & d1 & d2 & Ed & [(k & s' & Ex & C' & A')|(Ex & _)])]; try discriminate Ex; injection Ex as ->; cbn beta iota in R.
  - apply bind_ret in R as (n & w2 & R2 & R). unfold lift in R2. injection R2 as R2 <-. unfold mret in R. injection R as <- <- <-.
    split; [exact S|]. exists s', (c ++ d). cbn. rewrite len_app in *. split; [reflexivity|]. split; [exact H1|]. split; [exact H2|]. split; [congruence|]. split; [exact A'|]. split; [lia|exact U1].
  - unfold mret in R. injection R as <- <- <-.
    split; [exact S|]. exists s', (c ++ d1). cbn. rewrite len_app in *. pose proof (len_nonneg d1). split; [reflexivity|]. split; [exact H1|]. split; [exact H2|]. split; [congruence|]. split; [exact A'|]. split; [lia|exact U1].
Qed.

Lemma check_total c sc name expected sl : check_resource_w W b e name expected (whole c) (whole sc) = Ret (Ok sl) -> len c < 2 ^ W.
Proof.
  unfold check_resource_w. change (sl_len (whole c)) with (len c). destruct (len c <? _); [discriminate|].
  unfold obind, uadd_w. destruct (omap _ _) as [size| | |]; try discriminate.
  destruct (wrap_w W b (size + _)) as [x| | |]; try discriminate.
  destruct (wrap_w W b (x + _)) as [t| | |] eqn:E; try discriminate. apply wrap_range in E.
  destruct (t =? len c) eqn:Et; [|discriminate]. lia.
Qed.

Lemma grown_close st name h w T sl h' w' : grown st name h w T -> maps_ok w -> 0 <= T ->
  handle_close_w W b e h w = (Ret (Ok sl, h'), w') -> T + 16 < 2 ^ W /\ touches (cells_of st name) w w' /\ maps_ok w'.
Proof.
  intros (s & c & E & H1 & H2 & C & A & L & U) MO HT R. unfold handle_close_w in R. rewrite E in R.
  apply bind_ret in R as (x & w1 & R1 & R).
  destruct (puts_end _ _ s w c _ w1 write_padding_puts A R1) as (S1 & X). rewrite C in S1.
  destruct X as [(s1 & Ex & C1 & A1)|(F & d1 & d2 & Ed & [(k & s' & Ex & C' & A')|(Ex & _)])]; try discriminate Ex; injection Ex as ->; [|discriminate R].
  apply bind_ret in R as (x & w2 & R2 & R).
  destruct (seek_start_cases s1 w1 _ _ _ _ A1 R2) as (S2 & _ & X2). rewrite C1, C in S2.
  destruct X2 as [(s2 & Ex & C2 & A2)|(F & [(k & s' & Ex & _)|Ex])]; try discriminate Ex; injection Ex as ->; [|discriminate R].
  apply bind_ret in R as (x & w3 & R3 & R).
  assert (C2' : cell_of s2 = cell_at st name) by congruence.
  destruct (write_size_puts b e (h_size h) s2 w2 _ _ _ _ A2 ltac:(split; [lia|apply len_nonneg]) R3) as (S3 & X3). rewrite C2' in S3, X3.
  destruct X3 as [(s3 & Ex & C3 & A3)|(F & d1 & d2 & Ed & [(k & s' & Ex & _)|(Ex & _)])]; try discriminate Ex; injection Ex as ->; [|discriminate R].
  apply bind_ret in R as (x & w4 & R4 & R). unfold mret in R. injection R as -> <- <-. rewrite H1, H2 in R4.
  assert (S : step (eq (cell_at st name)) w w3) by (eapply step_trans; [apply S1|eapply step_trans; [apply S2|apply S3]]).
  assert (MO3 : maps_ok w3) by (eapply maps_ok_caches; [apply S|auto]).
  assert (T3 : touches (cells_of st name) w w3). { eapply touches_mono; [|apply S]. intros x <-. left. auto. }
  assert (U3 : uncached st name w3) by (eapply uncached_caches; [apply S|exact U]).
  assert (B3 := at_pos_bytes _ _ _ _ A3). rewrite C3 in B3.
  destruct (read_w_cases W b e st name (h_schema h) w3 MO3) as (Rd & X). destruct Rd as (T4 & _ & _ & _ & _ & MO4 & _).
  destruct X as [(c' & sc & F1 & F2 & _ & Er)|(Er & X)].
  - rewrite Er in R4. injection R4 as Ec Ew. rewrite Ew in *. apply check_total in Ec.
    split; [|split; [eapply touches_trans; eauto|auto]].
    assert (Fd : finds st w3 name (Some (splice 0 (le_bytes 8 (h_size h)) (c ++ zeros 8)))).
    { apply finds_uncached; auto. intros _ HH. apply (f_equal len) in HH. rewrite ConcFacts.splice_len in HH by lia.
      rewrite len_le_bytes, len_nil in HH. lia. }
    assert (Q := finds_fun _ _ _ _ _ F1 Fd). injection Q as ->. rewrite ConcFacts.splice_len, len_app, len_zeros in Ec by lia. lia.
  - exfalso. rewrite Er in R4. destruct (read b e st name (h_schema h) w3) as [o wx]. injection R4 as -> _. cbn [fst] in X.
    destruct X as [(k & X & _)|[(X & _)|(X & _)]]; discriminate.
Qed.

(** * External vectors *)
Definition alive (st : storage) (name : string) (v : ext_vec) (w : world) (T : Z) : Prop :=
  8 <= len (ev_data v) <= isize_max_w W /\ grown st name (ev_handle v) w (T - (len (ev_data v) - 8)).

Lemma slice_of_flush d n s : wrap_w W b (len d - PADDING_SIZE) = Ret n -> slice_range (whole d) 0 n = Ret s -> 8 <= len d <= isize_max_w W ->
  len (sl_bytes s) = len d - 8.
Proof. pw. unfold PADDING_SIZE. intros E S L. apply slice_len in S. apply wrap_range in E. lia. Qed.
Lemma max_8 : 8 <= isize_max_w W.
Proof. unfold isize_max_w. destruct (pow_w W HW). lia. Qed.

Lemma alive_flush st name v w T r v' w' : alive st name v w T -> ev_flush_w W b v w = (Ret (r, v'), w') ->
  step (eq (cell_at st name)) w w' /\ alive st name v' w' T /\ match r with Ok _ => len (ev_data v') = 8 | Er _ => True end.
Proof.
  intros (L & G) R. pose proof max_8 as M8. unfold ev_flush_w in R. apply bind_ret in R as (n & w1 & R1 & R). unfold lift in R1. injection R1 as R1 <-.
  apply bind_ret in R as (d & w1 & R2 & R). unfold lift in R2. injection R2 as R2 <-. assert (Ld := slice_of_flush _ _ _ R1 R2 L).
  apply bind_ret in R as ([r1 h1] & w1 & R3 & R). destruct (grown_write _ _ _ _ _ _ _ _ _ G R3) as (S & G1).
  destruct r1 as [u|k]; unfold mret in R; injection R as <- <- <-; (split; [exact S|]); unfold alive; cbn [ev_data ev_handle].
  - change (len (zeros PADDING_SIZE)) with 8. split; [|reflexivity]. split; [lia|].
    replace (T - (8 - 8)) with (T - (len (ev_data v) - 8) + len (sl_bytes d)) by lia. exact G1.
  - split; [|exact I]. split; [lia|exact G1].
Qed.
Lemma resize_w_len d n d' : len d <= n -> vec_resize_w W d n = Ret d' -> len d' = n /\ n <= isize_max_w W.
Proof.
  intros L. unfold vec_resize_w. destruct (Z.leb_spec n (isize_max_w W)); [|discriminate]. intros H1. injection H1 as <-.
  rewrite len_app, len_zeros by lia. rewrite firstn_all2 by (unfold len in L; lia). lia.
Qed.

Lemma alive_grow st name s v w T r v' w' : 0 <= s_size s <= isize_max_w W ->
  alive st name v w T -> ev_grow_w W b lim s v w = (Ret (r, v'), w') ->
  step (eq (cell_at st name)) w w' /\ alive st name v' w' (match r with Ok _ => T + s_size s | Er _ => T end).
Proof.
  intros Hs A R. pw. unfold ev_grow_w in R. apply bind_ret in R as ([r1 v1] & w1 & R1 & R).
  assert (X : step (eq (cell_at st name)) w w1 /\ alive st name v1 w1 T).
  { destruct (lim <? len (ev_data v)).
    - destruct (alive_flush _ _ _ _ _ _ _ _ A R1) as (S & A1 & _). auto.
    - unfold mret in R1. injection R1 as <- <- <-. split; [apply step_refl|auto]. }
  destruct X as (S & A1). destruct r1 as [u|k]; [|unfold mret in R; injection R as <- <- <-; auto].
  cbv zeta in R. destruct A1 as (L1 & G1).
  apply bind_ret in R as (n & w2 & R2 & R). unfold lift in R2. injection R2 as R2 <-. apply wrap_range in R2 as (_ & R2).
  apply bind_ret in R as (d & w2 & R3 & R). unfold lift in R3. injection R3 as R3 <-.
  apply bind_ret in R as (l & w2 & R4 & R). unfold lift in R4. injection R4 as R4 <-.
  apply bind_ret in R as (p & w2 & R5 & R). unfold lift in R5. injection R5 as R5 <-.
  apply bind_ret in R as (x & w2 & R6 & R). unfold lift in R6. injection R6 as R6 <-. unfold mret in R. injection R as <- <- <-.
  assert (n = len (ev_data v1) + s_size s) as -> by (apply R2; lia).
  apply resize_w_len in R3 as (R3 & R3'); [|lia]. split; [exact S|]. unfold alive. cbn [ev_data ev_handle].
  split; [lia|]. replace (T + s_size s - (len d - 8)) with (T - (len (ev_data v1) - 8)) by lia. exact G1.
Qed.
Lemma alive_set st name s sets p v w T v' w' : alive st name v w T -> ev_set b e s sets p v w = (Ret v', w') ->
  w' = w /\ alive st name v' w T.
Proof.
  intros (L & G) R. unfold ev_set in R. apply bind_ret in R as (d & w1 & R1 & R). unfold lift in R1. injection R1 as R1 <-.
  apply through_len in R1. unfold mret in R. injection R as <- <-. split; [reflexivity|]. unfold alive. cbn [ev_data ev_handle]. rewrite R1. auto.
Qed.
Lemma alive_step st name s sets v w T f v' w' : 0 <= s_size s <= isize_max_w W ->
  alive st name v w T -> ev_step_w W b e lim s sets v w = (Ret (f, v'), w') ->
  step (eq (cell_at st name)) w w' /\ alive st name v' w' (T + if f then s_size s else 0).
Proof.
  intros Hs A R. unfold ev_step_w in R. apply bind_ret in R as ([[p|k] v1] & w1 & R1 & R);
    destruct (alive_grow _ _ _ _ _ _ _ _ _ Hs A R1) as (S & A1).
  - apply bind_ret in R as (v2 & w2 & R2 & R). destruct (alive_set _ _ _ _ _ _ _ _ _ _ A1 R2) as (-> & A2).
    unfold mret in R. injection R as <- <- <-. auto.
  - unfold mret in R. injection R as <- <- <-. rewrite Z.add_0_r. auto.
Qed.
Lemma alive_intact st name v w w' T : intact st name w w' -> alive st name v w T -> alive st name v w' T.
Proof. intros I (L & G). split; [exact L|]. eapply grown_intact; eauto. Qed.
Lemma alive_touches P st name v w w' T : touches P w w' -> ~ P (cell_at st name) -> alive st name v w T -> alive st name v w' T.
Proof. intros I N (L & G). split; [exact L|]. eapply grown_touches; eauto. Qed.

Lemma alive_run st name s ops : 0 <= s_size s <= isize_max_w W -> Forall (ev_op_ok st name s) ops -> forall v w T flags v' w',
  maps_ok w -> alive st name v w T -> ev_run_w W b e lim s ops v w = (Ret (flags, v'), w') ->
  maps_ok w' /\ alive st name v' w' (T + Z.of_nat (length (kept ops flags)) * s_size s).
Proof.
  intros Hs. induction 1 as [|o ops Ho Hr IH]; intros v w T flags v' w' MO A R; cbn [ev_run_w] in R.
  - apply BuilderFacts.ret_pair in R as (-> & -> & ->). cbn. rewrite Z.add_0_r. auto.
  - apply bind_ret in R as ([f v1] & w1 & R1 & R). apply bind_ret in R as ([fs v2] & w2 & R2 & R). cbn [fst snd] in *.
    apply BuilderFacts.ret_pair in R as (-> & -> & ->). destruct o as [sets|g].
    + destruct (alive_step _ _ _ _ _ _ _ _ _ _ Hs A R1) as (S & A1).
      assert (MO1 : maps_ok w1) by (eapply maps_ok_caches; [apply S|auto]).
      destruct (IH _ _ _ _ _ _ MO1 A1 R2) as (M & X). split; [exact M|]. destruct f; cbn [kept length].
      * replace (T + _) with (T + s_size s + Z.of_nat (length (kept ops fs)) * s_size s) by lia. exact X.
      * rewrite Z.add_0_r in X. exact X.
    + injection R1 as <- <- <-. cbn [ev_op_ok] in Ho. destruct (Ho w MO) as (I & M).
      destruct (IH _ _ _ _ _ _ M (alive_intact _ _ _ _ _ _ (I name ltac:(cbn; auto)) A) R2) as (M2 & X). split; [exact M2|]. exact X.
Qed.

Lemma alive_close st name v w T sl w' : alive st name v w T -> 0 <= T -> maps_ok w -> ev_close_w W b e v w = (Ret (Ok sl), w') ->
  T + 16 < 2 ^ W /\ touches (cells_of st name) w w' /\ maps_ok w'.
Proof.
  intros A HT MO R. unfold ev_close_w in R. apply bind_ret in R as ([[u|k] v1] & w1 & R1 & R); destruct (alive_flush _ _ _ _ _ _ _ _ A R1) as (S & A1 & L1).
  - assert (MO1 : maps_ok w1) by (eapply maps_ok_caches; [apply S|auto]).
    assert (T1 : touches (cells_of st name) w w1). { eapply touches_mono; [|apply S]. intros x <-. left. auto. }
    apply bind_ret in R as ([r h] & w2 & R2 & R). apply bind_ret in R as (x & w3 & R3 & R). cbn [fst snd] in *. unfold mret in R. injection R as -> <-.
    destruct A1 as (_ & G). rewrite L1 in G. replace (T - (8 - 8)) with T in G by lia.
    destruct (grown_close _ _ _ _ _ _ _ _ G MO1 HT R2) as (B1 & B2 & B3).
    assert (w3 = w2). { unfold handle_drop in R3. destruct (is_open h); cbn in R3; [discriminate|]. injection R3 as _ <-. reflexivity. }
    subst w3. split; [exact B1|]. split; [eapply touches_trans; eauto|exact B3].
  - apply bind_ret in R as (x & w3 & R3 & R). unfold mret in R. discriminate R.
Qed.

(** * Multivectors *)
Definition malive (st : storage) (name : string) (v : multi_vec) (w : world) (T Ti : Z) : Prop :=
  8 <= len (mv_data v) <= isize_max_w W /\ grown st name (mv_handle v) w (T - (len (mv_data v) - 8)) /\
  alive st (index_name name) (mv_index v) w Ti.

Section Multi.
Variables (size bits : Z) (ts : vdesc) (st : storage) (name : string).
Hypothesis Hsize : 0 < size <= isize_max_w W.
Hypothesis Hts : Forall (fun p => 0 <= s_size (snd p) < isize_max_w W) ts.
Hypothesis Hname : valid_name name.

Lemma data_not_index : cell_at st (index_name name) <> cell_at st name.
Proof. destruct (index_cells st name Hname) as ((N1 & _) & _). intros H. apply N1. left. symmetry. exact H. Qed.
Lemma data_mono w w' : step (eq (cell_at st name)) w w' -> step (mv_cells st name) w w'.
Proof. apply eq_mono, mv_cells_data. Qed.
Lemma index_mono w w' : step (eq (cell_at st (index_name name))) w w' -> step (mv_cells st name) w w'.
Proof. apply eq_mono, mv_cells_index. Qed.

Lemma malive_flush v w T Ti r v' w' : malive st name v w T Ti -> mv_flush_w W b v w = (Ret (r, v'), w') ->
  step (mv_cells st name) w w' /\ malive st name v' w' T Ti /\ match r with Ok _ => len (mv_data v') = 8 | Er _ => True end.
Proof.
  intros (L & G & A) R. pose proof max_8 as M8. unfold mv_flush_w in R. apply bind_ret in R as (n & w1 & R1 & R). unfold lift in R1. injection R1 as R1 <-.
  apply bind_ret in R as (d & w1 & R2 & R). unfold lift in R2. injection R2 as R2 <-. assert (Ld := slice_of_flush _ _ _ R1 R2 L).
  apply bind_ret in R as ([r1 h1] & w1 & R3 & R). destruct (grown_write _ _ _ _ _ _ _ _ _ G R3) as (S & G1).
  assert (A1 : alive st (index_name name) (mv_index v) w1 Ti).
  { eapply alive_touches; [apply S| |exact A]. intros H. symmetry in H. exact (data_not_index H). }
  assert (S' := data_mono _ _ S). destruct r1 as [u|k].
  - apply bind_ret in R as (f & w2 & R4 & R). unfold lift in R4. injection R4 as R4 <-. unfold mret in R. injection R as <- <- <-.
    split; [exact S'|]. unfold malive. cbn [mv_data mv_handle mv_index]. change (len (zeros PADDING_SIZE)) with 8. split; [|reflexivity].
    split; [lia|]. split; [|exact A1]. replace (T - (8 - 8)) with (T - (len (mv_data v) - 8) + len (sl_bytes d)) by lia. exact G1.
  - unfold mret in R. injection R as <- <- <-. split; [exact S'|]. split; [|exact I]. split; [exact L|]. split; [exact G1|exact A1].
Qed.
Lemma malive_index v w T Ti r v' w' : malive st name v w T Ti -> mv_add_to_index_w W b e lim size bits v w = (Ret (r, v'), w') ->
  step (mv_cells st name) w w' /\ malive st name v' w' T (match r with Ok _ => Ti + size | Er _ => Ti end).
Proof.
  intros (L & G & A) R. unfold mv_add_to_index_w in R. cbv zeta in R. apply bind_ret in R as ([r1 i1] & w1 & R1 & R).
  destruct (alive_grow st _ (index_struct size bits) _ _ _ _ _ _ ltac:(cbn; lia) A R1) as (S & A1). cbn [s_size index_struct] in A1.
  assert (G1 : grown st name (mv_handle v) w1 (T - (len (mv_data v) - 8))).
  { eapply grown_touches; [apply S|exact data_not_index|exact G]. }
  assert (S' := index_mono _ _ S). destruct r1 as [p|k].
  - apply bind_ret in R as (x & w2 & R2 & R). unfold lift in R2. injection R2 as R2 <-.
    apply bind_ret in R as (y & w2 & R3 & R). unfold lift in R3. injection R3 as R3 <-.
    apply bind_ret in R as (i2 & w2 & R4 & R). destruct (alive_set _ _ _ _ _ _ _ _ _ _ A1 R4) as (-> & A2).
    unfold mret in R. injection R as <- <- <-. split; [exact S'|]. split; [exact L|]. split; [exact G1|exact A2].
  - unfold mret in R. injection R as <- <- <-. split; [exact S'|]. split; [exact L|]. split; [exact G1|exact A1].
Qed.
Lemma item_w_len t sets d d' : 8 <= len d <= isize_max_w W -> item_add_w W b e ts t sets d = Ret d' ->
  len d' = len d + (1 + s_size (v_struct ts t)) /\ len d' <= isize_max_w W.
Proof.
  intros L. pw. assert (Hs : 0 <= s_size (v_struct ts t) < isize_max_w W).
  { unfold v_struct. destruct (nth_in_or_default t ts (0, mkStruct 0 [])) as [I| ->]; [|cbn; pose proof max_8; lia].
    rewrite Forall_forall in Hts. apply (Hts _ I). }
  unfold item_add_w, obind, uadd_w.
  destruct (wrap_w W b (1 + s_size (v_struct ts t))) as [i| | |] eqn:E1; try discriminate. apply wrap_range in E1 as (_ & E1).
  rewrite E1 in * by lia. clear E1.
  destruct (wrap_w W b (len d + (1 + s_size (v_struct ts t)))) as [n| | |] eqn:E2; try discriminate. apply wrap_range in E2 as (_ & E2).
  rewrite E2 in * by lia. clear E2.
  destruct (vec_resize_w W d _) as [d1| | |] eqn:E3; try discriminate. apply resize_w_len in E3 as (E3 & E4); [|lia].
  destruct (usub_w W b (len d) PADDING_SIZE) as [p| | |]; try discriminate. destruct (negb (p <? len d1)); [discriminate|].
  destruct (mem_write d1 p _) as [d2| | |] eqn:E5; try discriminate. apply mem_write_len in E5.
  destruct (wrap_w W b (1 + len d)) as [q| | |]; try discriminate. destruct (usub_w W b q PADDING_SIZE) as [q'| | |]; try discriminate.
  destruct (slice_from (whole d2) q') as [x| | |]; try discriminate. intros H. apply through_len in H. lia.
Qed.
Lemma items_w_len items : forall d d', 8 <= len d <= isize_max_w W -> items_add_w W b e ts items d = Ret d' ->
  len d' = len d + items_size ts items /\ 8 <= len d' <= isize_max_w W.
Proof.
  induction items as [|[t sets] items IH]; intros d d' L; cbn [items_add_w items_size fst].
  - intros H. injection H as <-. lia.
  - unfold obind at 1. destruct (item_add_w W b e ts t sets d) as [d1| | |] eqn:E1; try discriminate. intros H.
    assert (Hs : 0 <= s_size (v_struct ts t)).
    { unfold v_struct. destruct (nth_in_or_default t ts (0, mkStruct 0 [])) as [I| ->]; [|cbn; lia].
      rewrite Forall_forall in Hts. apply (Hts _ I). }
    apply item_w_len in E1; [|exact L]. apply IH in H; lia.
Qed.
Lemma malive_step items v w T Ti f v' w' : malive st name v w T Ti -> mv_step_w W b e lim size bits ts items v w = (Ret (f, v'), w') ->
  step (mv_cells st name) w w' /\ malive st name v' w' (T + if f then items_size ts items else 0) (Ti + if f then size else 0).
Proof.
  intros A R. unfold mv_step_w in R. apply bind_ret in R as ([r1 v1] & w1 & R1 & R).
  assert (X : step (mv_cells st name) w w1 /\ malive st name v1 w1 T (match r1 with Ok _ => Ti + size | Er _ => Ti end)).
  { unfold mv_grow_w in R1. apply bind_ret in R1 as ([r2 v2] & w2 & R2 & R1).
    assert (Y : step (mv_cells st name) w w2 /\ malive st name v2 w2 T Ti).
    { destruct (lim <? len (mv_data v)).
      - destruct (malive_flush _ _ _ _ _ _ _ A R2) as (S & A2 & _). auto.
      - unfold mret in R2. injection R2 as <- <- <-. split; [apply step_refl|exact A]. }
    destruct Y as (S & A2). destruct r2 as [u|k]; [|unfold mret in R1; injection R1 as <- <- <-; auto].
    destruct (malive_index _ _ _ _ _ _ _ A2 R1) as (S2 & A3). split; [eapply step_trans; eauto|exact A3]. }
  destruct X as (S & A1). destruct r1 as [u|k].
  - apply bind_ret in R as (v2 & w2 & R2 & R). unfold mret in R. injection R as <- <- <-. unfold mv_add_w in R2.
    apply bind_ret in R2 as (d & w3 & R3 & R2). unfold lift in R3. injection R3 as R3 <-. unfold mret in R2. injection R2 as <- <-.
    destruct A1 as (L & G & A1). apply items_w_len in R3 as (R3 & R4); [|exact L]. split; [exact S|].
    split; [exact R4|]. cbn [mv_data mv_handle mv_index]. split; [|exact A1].
    replace (T + items_size ts items - (len d - 8)) with (T - (len (mv_data v1) - 8)) by lia. exact G.
  - unfold mret in R. injection R as <- <- <-. rewrite !Z.add_0_r. auto.
Qed.
Definition sizes (l : list (list (nat * list (nat * Z)))) : Z := fold_right Z.add 0 (map (items_size ts) l).
Lemma malive_run ops : Forall (mv_op_ok st name ts) ops -> forall v w T Ti flags v' w',
  maps_ok w -> malive st name v w T Ti -> mv_run_w W b e lim size bits ts ops v w = (Ret (flags, v'), w') ->
  maps_ok w' /\ malive st name v' w' (T + sizes (mv_kept ops flags)) (Ti + Z.of_nat (length (mv_kept ops flags)) * size).
Proof.
  induction 1 as [|o ops Ho Hr IH]; intros v w T Ti flags v' w' MO A R; cbn [mv_run_w] in R.
  - apply BuilderFacts.ret_pair in R as (-> & -> & ->). cbn. rewrite !Z.add_0_r. auto.
  - apply bind_ret in R as ([f v1] & w1 & R1 & R). apply bind_ret in R as ([fs v2] & w2 & R2 & R). cbn [fst snd] in *.
    apply BuilderFacts.ret_pair in R as (-> & -> & ->). destruct o as [items|g].
    + destruct (malive_step _ _ _ _ _ _ _ _ A R1) as (S & A1).
      assert (MO1 : maps_ok w1) by (eapply maps_ok_caches; [apply S|auto]).
      destruct (IH _ _ _ _ _ _ _ MO1 A1 R2) as (M & X). split; [exact M|]. destruct f; cbn [mv_kept length].
      * unfold sizes in *. cbn [map fold_right]. rewrite Z.add_assoc.
        replace (Ti + _) with (Ti + size + Z.of_nat (length (mv_kept ops fs)) * size) by lia. exact X.
      * rewrite !Z.add_0_r in X. exact X.
    + injection R1 as <- <- <-. cbn [mv_op_ok] in Ho. destruct (Ho w MO) as (I & M).
      destruct A as (L & G & A). eapply IH; [exact M| |exact R2]. split; [exact L|]. split.
      * eapply grown_intact; [|exact G]. apply I. cbn. auto.
      * eapply alive_intact; [|exact A]. apply I. cbn. auto.
Qed.
Lemma malive_close v w T Ti p w' : malive st name v w T Ti -> 0 <= T -> 0 <= Ti -> maps_ok w -> mv_close_w W b e lim size bits v w = (Ret (Ok p), w') ->
  T + 16 < 2 ^ W /\ Ti + size + 16 < 2 ^ W /\ touches (mv_cells st name) w w' /\ maps_ok w'.
Proof.
  intros A HT HTi MO R. unfold mv_close_w in R. cbv zeta in R.
  apply bind_ret in R as ([[u|k] v1] & w1 & R1 & R); [|apply bind_ret in R as (? & ? & _ & R); discriminate R].
  destruct (malive_index _ _ _ _ _ _ _ A R1) as (S1 & A1).
  apply bind_ret in R as ([[u2|k] v2] & w2 & R2 & R); [|apply bind_ret in R as (? & ? & _ & R); discriminate R].
  destruct (malive_flush _ _ _ _ _ _ _ A1 R2) as (S2 & A2 & L2).
  assert (MO2 : maps_ok w2) by (eapply maps_ok_caches; [apply S2|eapply maps_ok_caches; [apply S1|auto]]).
  destruct A2 as (L & G & A2). rewrite L2 in G. replace (T - (8 - 8)) with T in G by lia.
  apply bind_ret in R as ([iv|x] & w3 & R3 & R); [|apply bind_ret in R as (? & ? & _ & R); discriminate R].
  destruct (alive_close _ _ _ _ _ _ _ A2 ltac:(lia) MO2 R3) as (B1 & B2 & B3).
  assert (G3 : grown st name (mv_handle v2) w3 T).
  { eapply grown_touches; [exact B2| |exact G]. apply (index_cells st name Hname). }
  apply bind_ret in R as ([r4 h4] & w4 & R4 & R). apply bind_ret in R as (x & w5 & R5 & R). cbn [fst snd] in *.
  destruct r4 as [d|x4]; [|discriminate R]. destruct (grown_close _ _ _ _ _ _ _ _ G3 B3 HT R4) as (D1 & D2 & D3).
  assert (w5 = w4). { unfold handle_drop in R5. destruct (is_open h4); cbn in R5; [discriminate|]. injection R5 as _ <-. reflexivity. }
  unfold mret in R. injection R as _ <-. subst w5. split; [lia|]. split; [lia|]. split; [|exact D3].
  eapply touches_trans; [apply S1|]. eapply touches_trans; [apply S2|].
  eapply touches_trans; (eapply touches_mono; [|eassumption]); intros c Hc; [right|left]; exact Hc.
Qed.
End Multi.
End Width.
