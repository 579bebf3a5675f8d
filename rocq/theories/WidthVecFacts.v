(** What vectors and multivectors leave on a target of any width, without
    failures. *)
From Verif Require Import Base BaseFacts Codec CodecSpec CodecFacts Structs StructsSpec StructsFacts.
From Verif Require Import Views ViewsSpec ViewsFacts Storage PathFacts StorageSpec StorageFacts StorageMore StorageUse.
From Verif Require Import Writers WritersSpec HandleFacts EncodeFacts ExtVecFacts MultiViews MultiSpec MultiViewFacts MultiVecFacts MultiVecUse.
From Verif Require Import Width WidthFacts Conc ConcSpec ConcVec ConcVecUse WidthWriters WidthWriteFacts WidthVectors WidthVecSpec.
Local Open Scope list_scope.
Local Open Scope Z_scope.
Local Arguments firstn : simpl never.
Local Arguments skipn : simpl never.

Lemma vector_64 b e lim s st name schema els w :
  vector_session_w 64 b e lim s st name schema els w = vector_session b e lim s st name schema els w.
Proof. reflexivity. Qed.
Lemma multi_64 b e lim size bits ts st name schema els w :
  multi_session_w 64 b e lim size bits ts st name schema els w = multi_session b e lim size bits ts st name schema els w.
Proof. reflexivity. Qed.

Section Width.
Variables (W : Z) (b : build) (e : endian) (lim : Z).
Hypothesis HW : 1 <= W <= 64.
Lemma limits : 0 < 2 ^ (W - 1) /\ 2 ^ W = 2 * 2 ^ (W - 1) /\ isize_max_w W = 2 ^ (W - 1) - 1 /\ isize_max_w W <= isize_max.
Proof.
  assert (0 < 2 ^ (W - 1)) by (apply Z.pow_pos_nonneg; lia).
  assert (2 ^ W = 2 * 2 ^ (W - 1)) by (rewrite <- Z.pow_succ_r by lia; f_equal; lia).
  assert (2 ^ (W - 1) <= 2 ^ 63) by (apply Z.pow_le_mono_r; lia).
  repeat split; auto. unfold isize_max_w, isize_max. lia.
Qed.
Ltac lims := pose proof limits as (Lp & L2 & Li & Lm).
Lemma wrap_w_ok x : 0 <= x < 2 ^ W -> wrap_w W b x = Ret x.
Proof. intros H. rewrite wrap_w_eq by lia. replace (x <? 2 ^ W) with true by lia. reflexivity. Qed.
Lemma resize_w data n : n <= isize_max_w W -> vec_resize_w W data n = vec_resize data n.
Proof. intros H. lims. unfold vec_resize_w, vec_resize. replace (n <=? isize_max_w W) with true by lia. replace (n <=? isize_max) with true by lia. reflexivity. Qed.
Lemma flush_slice_w rest : len rest + 8 <= isize_max_w W ->
  usub_w W b (len (rest ++ zeros 8)) PADDING_SIZE = Ret (len rest) /\
  exists d, slice_range (whole (rest ++ zeros 8)) 0 (len rest) = Ret d /\ sl_bytes d = rest.
Proof.
  intros H. lims. destruct (flush_slice b rest ltac:(lia)) as (_ & X). split; auto.
  pose proof (len_nonneg rest). rewrite len_app, len_zeros by lia. unfold usub_w, PADDING_SIZE. rewrite wrap_w_ok by lia. f_equal. lia.
Qed.
Lemma item_add_same ts t sets data : 8 <= len data -> 0 <= s_size (v_struct ts t) -> len data + (1 + s_size (v_struct ts t)) <= isize_max_w W ->
  item_add_w W b e ts t sets data = item_add b e ts t sets data.
Proof.
  intros H1 H2 H3. lims. unfold isize_max in Lm. unfold item_add_w, item_add, uadd_w, uadd, usub_w, usub, PADDING_SIZE.
  repeat (rewrite wrap_w_ok by lia; rewrite wrap_ok by (unfold usize_limit; lia); cbn [obind]).
  rewrite resize_w by lia. destruct (vec_resize data (len data + (1 + s_size (v_struct ts t)))) as [data'| | |]; cbn [obind]; auto.
Qed.
Lemma items_add_same ts items : wf_vdesc ts -> items_ok ts items -> forall rest, len rest + 8 + items_size ts items <= isize_max_w W ->
  items_add_w W b e ts items (rest ++ zeros 8) = items_add b e ts items (rest ++ zeros 8).
Proof.
  intros Hwf H. lims. induction H as [|[t sets] items (Ht & Hs) H IH]; intros rest L; cbn [items_add_w items_add]; auto.
  cbn [items_size fst snd] in *. assert (Hn := items_size_nonneg ts items Hwf H). destruct (wf_vdesc_nth ts t Hwf Ht) as (_ & (Hp & _)).
  assert (Hnn : len (rest ++ zeros 8) = len rest + 8) by (rewrite len_app; reflexivity). pose proof (len_nonneg rest).
  rewrite item_add_same by lia. destruct (item_add_ok b e ts t sets rest Hwf Ht Hs ltac:(lia)) as (by1 & E1 & _ & L1).
  rewrite E1. cbn [obind]. rewrite app_assoc. apply IH. rewrite len_app. lia.
Qed.
Lemma items_bytes_add_w ts items rest : wf_vdesc ts -> items_ok ts items -> len rest + 8 + len (items_bytes ts items) <= isize_max_w W ->
  items_add_w W b e ts items (rest ++ zeros 8) = Ret ((rest ++ items_bytes ts items) ++ zeros 8).
Proof.
  intros Hwf H L. lims. rewrite items_add_same; auto; [apply items_bytes_add; auto; lia|]. rewrite <- items_bytes_len by auto. auto.
Qed.

(** * External vectors *)
Section Vector.
Variables (st : storage) (name : string).
(** [D] is written, [rest] is not; [cnt] elements. *)
Definition ev_w (v : ext_vec) (w : world) (D rest : list Z) (cnt : Z) : Prop :=
  counting st name (ev_handle v) w (zeros 8 ++ D) (len D mod 2 ^ W) /\ ev_data v = rest ++ zeros 8 /\
  ev_len v = cnt mod 2 ^ W /\ 0 <= cnt /\ (b = Debug -> len D < 2 ^ W /\ cnt < 2 ^ W).

Lemma write_w_data h w D d : counting st name h w (zeros 8 ++ D) (len D mod 2 ^ W) -> w_faults w = [] -> (b = Debug -> len D < 2 ^ W) ->
  exists w1, step (eq (cell_at st name)) w w1 /\ w_faults w1 = [] /\
    ((b = Debug /\ 2 ^ W <= len D + len d /\ handle_write_w W b h d w = (Panic, w1)) \/
     exists h1, handle_write_w W b h d w = (Ret (Ok tt, h1), w1) /\ (b = Debug -> len (D ++ d) < 2 ^ W) /\
       counting st name h1 w1 (zeros 8 ++ D ++ d) (len (D ++ d) mod 2 ^ W)).
Proof.
  intros K Hf Hd. lims. assert (Hn : 0 <= len D mod 2 ^ W < 2 ^ W) by (apply Z.mod_pos_bound; lia).
  destruct (write_w_end W st name ltac:(lia) b h w _ _ d K Hn Hf) as (w1 & S & Hf1 & X). exists w1. split; auto. split; auto.
  pose proof (len_nonneg D). pose proof (len_nonneg d).
  rewrite Z.add_mod_idemp_l, <- len_app, <- app_assoc in X by lia.
  destruct b.
  - specialize (Hd eq_refl). rewrite (Z.mod_small (len D)) in X by lia.
    destruct (Z.leb_spec (2 ^ W) (len D + len d)).
    + left. auto.
    + right. destruct X as (h1 & X1 & X2). exists h1. split; auto. split; auto. rewrite len_app. lia.
  - right. destruct X as (h1 & X1 & X2). exists h1. split; auto. split; [discriminate|auto].
Qed.
Lemma flush_w_end v w D rest cnt : ev_w v w D rest cnt -> len rest + 8 <= isize_max_w W -> w_faults w = [] ->
  exists w1, step (eq (cell_at st name)) w w1 /\ w_faults w1 = [] /\
    ((b = Debug /\ 2 ^ W <= len D + len rest /\ ev_flush_w W b v w = (Panic, w1)) \/
     exists v1, ev_flush_w W b v w = (Ret (Ok tt, v1), w1) /\ ev_w v1 w1 (D ++ rest) [] cnt).
Proof.
  intros (K & Ed & El & Hc & Hd) L Hf. destruct (flush_slice_w rest L) as (E1 & d & E2 & E3).
  unfold ev_flush_w, mbind, lift. rewrite Ed, E1, E2, E3.
  destruct (write_w_data _ w D rest K Hf ltac:(intros X; apply Hd; auto)) as (w1 & S & Hf1 & [(Bd & Lo & X)|(h1 & X & Lt & K1)]);
    exists w1; split; auto; split; auto; rewrite X; [left; auto|right].
  eexists. split; [reflexivity|]. split; [exact K1|]. split; [reflexivity|]. split; [exact El|]. split; auto.
  intros Bd. split; auto. apply Hd. auto.
Qed.
Lemma grow_w_end s v w D rest cnt : 0 < s_size s -> Z.max lim 8 + s_size s <= isize_max_w W ->
  ev_w v w D rest cnt -> len rest + 8 <= isize_max_w W -> w_faults w = [] ->
  exists w1, step (eq (cell_at st name)) w w1 /\ w_faults w1 = [] /\
    ((b = Debug /\ (2 ^ W <= len D + len rest \/ 2 ^ W <= cnt + 1) /\ ev_grow_w W b lim s v w = (Panic, w1)) \/
     exists h1 D' rest', ev_grow_w W b lim s v w = (Ret (Ok (len rest'), mkEV (rest' ++ zeros (s_size s) ++ zeros 8) ((cnt + 1) mod 2 ^ W) h1), w1) /\
       D' ++ rest' = D ++ rest /\ len rest' + s_size s + 8 <= isize_max_w W /\
       counting st name h1 w1 (zeros 8 ++ D') (len D' mod 2 ^ W) /\ (b = Debug -> len D' < 2 ^ W /\ cnt + 1 < 2 ^ W)).
Proof.
  intros Hs Room Hi L Hf. lims.
  assert (Go : forall v1 w1 D1 rest1, ev_w v1 w1 D1 rest1 cnt -> len rest1 + s_size s + 8 <= isize_max_w W ->
    forall m, (let old_size := len (ev_data v1) in
      let! n := lift (uadd_w W b old_size (s_size s)) in
      let! data := lift (vec_resize_w W (ev_data v1) n) in
      let! l := lift (uadd_w W b (ev_len v1) 1) in
      let! p := lift (usub_w W b old_size PADDING_SIZE) in
      let! _ := lift (slice_from (whole data) p) in
      mret (Ok p : result Z io_kind, mkEV data l (ev_handle v1))) w1 = m ->
    (b = Debug /\ 2 ^ W <= cnt + 1 /\ m = (Panic, w1)) \/
    ((b = Debug -> cnt + 1 < 2 ^ W) /\
     m = (Ret (Ok (len rest1), mkEV (rest1 ++ zeros (s_size s) ++ zeros 8) ((cnt + 1) mod 2 ^ W) (ev_handle v1)), w1))).
  { intros v1 w1 D1 rest1 (K & Ed & El & Hc & Hd) L1 m. cbv zeta. unfold mbind, lift. rewrite Ed, El. pose proof (len_nonneg rest1).
    assert (Hnn : len (rest1 ++ zeros 8) = len rest1 + 8) by (rewrite len_app; reflexivity). rewrite Hnn.
    unfold uadd_w at 1. rewrite wrap_w_ok by lia. rewrite resize_w, resize_grow by lia.
    unfold uadd_w. assert (Hm : 0 <= cnt mod 2 ^ W < 2 ^ W) by (apply Z.mod_pos_bound; lia).
    assert (Fin : (let (o, w2) := (usub_w W b (len rest1 + 8) PADDING_SIZE, w1) in
      match o with
      | Ret v => let (o0, w3) := (slice_from (whole (rest1 ++ zeros (s_size s) ++ zeros 8)) v, w2) in
          match o0 with Ret _ => mret (Ok v : result Z io_kind, mkEV (rest1 ++ zeros (s_size s) ++ zeros 8) ((cnt + 1) mod 2 ^ W) (ev_handle v1)) w3
                      | Panic => (Panic, w3) | UB => (UB, w3) | Crash => (Crash, w3) end
      | Panic => (Panic, w2) | UB => (UB, w2) | Crash => (Crash, w2) end) =
      (Ret (Ok (len rest1), mkEV (rest1 ++ zeros (s_size s) ++ zeros 8) ((cnt + 1) mod 2 ^ W) (ev_handle v1)), w1)).
    { unfold usub_w, PADDING_SIZE. rewrite wrap_w_ok by lia. replace (len rest1 + 8 - 8) with (len rest1) by lia.
      unfold slice_from. rewrite slice_range_ok by (simpl; rewrite ?len_app, ?len_zeros; lia). reflexivity. }
    destruct b eqn:Eb.
    - destruct (Hd eq_refl) as (_ & Hd2). rewrite (Z.mod_small cnt) by lia. rewrite wrap_w_eq by lia.
      destruct (Z.ltb_spec (cnt + 1) (2 ^ W)) as [H1|H1]; [|left; auto].
      intros <-. right. split; auto. rewrite (Z.mod_small (cnt + 1)) in Fin by lia. rewrite (Z.mod_small (cnt + 1)) by lia. exact Fin.
    - intros <-. right. split; [discriminate|]. replace (wrap_w W Release (cnt mod 2 ^ W + 1)) with (Ret ((cnt + 1) mod 2 ^ W)); [exact Fin|].
      rewrite wrap_w_eq by lia. rewrite <- (Z.add_mod_idemp_l cnt) by lia.
      destruct (Z.ltb_spec (cnt mod 2 ^ W + 1) (2 ^ W)); [rewrite Z.mod_small by lia|]; reflexivity. }
  pose proof Hi as (_ & Ed & _). pose proof (len_nonneg rest).
  assert (Hnn : len (rest ++ zeros 8) = len rest + 8) by (rewrite len_app; reflexivity).
  remember (ev_grow_w W b lim s v w) as m eqn:M. unfold ev_grow_w in M. unfold mbind at 1 in M. rewrite Ed, Hnn in M.
  destruct (Z.ltb_spec lim (len rest + 8)) as [Hl|Hl].
  - destruct (flush_w_end v w D rest cnt Hi L Hf) as (w1 & S & Hf1 & [(Bd & Lo & X)|(v1 & X & I1)]);
      exists w1; split; auto; split; auto; rewrite X in M; [left; auto|].
    assert (Lr : len (@nil Z) + s_size s + 8 <= isize_max_w W) by (rewrite len_nil; lia).
    destruct (Go v1 w1 (D ++ rest) [] I1 Lr _ (eq_sym M)) as [(Bd & Lo & Y)|(Lo & Y)]; [left; auto|right].
    exists (ev_handle v1), (D ++ rest), []. split; [exact Y|]. split; [apply app_nil_r|]. split; auto.
    destruct I1 as (K & _ & _ & _ & Hd). split; auto. intros Bd. split; auto. apply Hd. auto.
  - exists w. split; [apply step_refl|]. split; auto. cbn [mret] in M. unfold mret in M at 1.
    destruct (Go v w D rest Hi ltac:(lia) _ (eq_sym M)) as [(Bd & Lo & Y)|(Lo & Y)]; [left; auto|right].
    exists (ev_handle v), D, rest. split; [exact Y|]. split; auto. split; [lia|].
    destruct Hi as (K & _ & _ & _ & Hd). split; auto. intros Bd. split; auto. apply Hd. auto.
Qed.
Lemma finish_handle_end h w D : counting st name h w (zeros 8 ++ D) (len D mod 2 ^ W) -> w_faults w = [] ->
  exists w1, step (eq (cell_at st name)) w w1 /\ w_faults w1 = [] /\
    (let! r := finish_handle b e h in let! _ := handle_drop false (snd r) in mret (fst r)) w = (Ret (Ok tt), w1) /\
    bytes_at (cell_at st name) w1 = Some (le_bytes 8 (len D mod 2 ^ W) ++ D ++ zeros 8).
Proof.
  intros K Hf. destruct (finish_end st name b e h w _ _ K) as (w1 & S & R & B); auto.
  { rewrite len_app, len_zeros by lia. pose proof (len_nonneg D). lia. }
  exists w1. split; auto. split; [apply S; auto|]. split; [|exact B].
  destruct K as (s & E & _). unfold finish_handle, mbind. rewrite E. cbn [h_stream]. unfold mbind. rewrite R. reflexivity.
Qed.
Lemma ev_finish_end v w D rest cnt : ev_w v w D rest cnt -> len rest + 8 <= isize_max_w W -> w_faults w = [] ->
  exists w1, step (eq (cell_at st name)) w w1 /\ w_faults w1 = [] /\
    ((b = Debug /\ 2 ^ W <= len (D ++ rest) /\ ev_finish_w W b e v w = (Panic, w1)) \/
     ((b = Debug -> len (D ++ rest) < 2 ^ W) /\ ev_finish_w W b e v w = (Ret (Ok tt), w1) /\
       bytes_at (cell_at st name) w1 = Some (le_bytes 8 (len (D ++ rest) mod 2 ^ W) ++ (D ++ rest) ++ zeros 8))).
Proof.
  intros Hi L Hf. remember (ev_finish_w W b e v w) as m eqn:M. unfold ev_finish_w in M. unfold mbind at 1 in M.
  destruct (flush_w_end v w D rest cnt Hi L Hf) as (w1 & S & Hf1 & [(Bd & Lo & X)|(v1 & X & I1)]); rewrite X in M.
  - exists w1. split; auto. split; auto. left. rewrite len_app. auto.
  - destruct I1 as (K & _ & _ & _ & Hd). destruct (finish_handle_end _ w1 _ K Hf1) as (w2 & S2 & Hf2 & R & B).
    exists w2. split; [eapply step_trans; eauto|]. split; auto. right. split; [intros Bd; apply Hd; auto|]. rewrite M. auto.
Qed.
Lemma fill_finish_end s els : wf_struct s -> Forall (sets_ok s) els -> Z.max lim 8 + s_size s <= isize_max_w W ->
  forall v w D rest cnt, ev_w v w D rest cnt -> cnt <= len D + len rest -> len rest + 8 <= isize_max_w W -> w_faults w = [] ->
  let E := D ++ rest ++ elements_bytes s els in
  exists w1, step (eq (cell_at st name)) w w1 /\ w_faults w1 = [] /\
    ((b = Debug /\ 2 ^ W <= len E /\ mtry (fun k => EIo k name) (ev_fill_w W b e lim s els v) (ev_finish_w W b e) w = (Panic, w1)) \/
     ((b = Debug -> len E < 2 ^ W) /\ mtry (fun k => EIo k name) (ev_fill_w W b e lim s els v) (ev_finish_w W b e) w = (Ret (Ok tt), w1) /\
       bytes_at (cell_at st name) w1 = Some (le_bytes 8 (len E mod 2 ^ W) ++ E ++ zeros 8))).
Proof.
  intros Hwf Fs Room. pose proof Hwf as (Hp & _). lims. induction Fs as [|sets els Hs Fs IH]; intros v w D rest cnt Hi Hc L Hf E.
  - subst E. unfold elements_bytes. cbn [map List.concat]. rewrite app_nil_r. apply ev_finish_end with (cnt := cnt); auto.
  - assert (Ee : elements_bytes s (sets :: els) = record_bytes s (apply_sets sets (zero_record s)) ++ elements_bytes s els) by reflexivity.
    set (rec := record_bytes s (apply_sets sets (zero_record s))) in *. assert (Lrec : len rec = s_size s) by (apply record_bytes_len; lia).
    pose proof (len_nonneg D). pose proof (len_nonneg rest). pose proof (len_nonneg (elements_bytes s els)).
    assert (LE : len E = len D + len rest + s_size s + len (elements_bytes s els)) by (unfold E; rewrite Ee, !len_app; lia).
    remember (mtry (fun k => EIo k name) (ev_fill_w W b e lim s (sets :: els) v) (ev_finish_w W b e) w) as m eqn:M.
    cbn [ev_fill_w] in M. unfold mtry, mbind at 1 in M. unfold mbind at 1 in M.
    destruct (grow_w_end s v w D rest cnt Hp Room Hi L Hf) as (w1 & S & Hf1 & [(Bd & Lo & X)|(h1 & D' & rest' & X & Ec & L' & K & Hd)]); rewrite X in M.
    + exists w1. split; auto. split; auto. left. split; auto. split; [lia|auto].
    + unfold ev_set in M. unfold mbind at 1 in M. unfold mbind at 1 in M. unfold lift in M. cbn [ev_data ev_len ev_handle] in M. rewrite set_bytes in M by auto. fold rec in M. rewrite app_assoc in M.
      assert (Lc : len D' + len rest' = len D + len rest) by (rewrite <- !len_app, Ec; reflexivity).
      destruct (IH (mkEV ((rest' ++ rec) ++ zeros 8) ((cnt + 1) mod 2 ^ W) h1) w1 D' (rest' ++ rec) (cnt + 1)) as (w2 & S2 & Hf2 & Y); auto.
      * split; [exact K|]. split; [reflexivity|]. split; [reflexivity|]. split; [destruct Hi; lia|]. auto.
      * rewrite len_app. lia.
      * rewrite len_app. lia.
      * assert (EE : E = D' ++ (rest' ++ rec) ++ elements_bytes s els) by (unfold E; rewrite Ee, !app_assoc, Ec; reflexivity).
        rewrite <- EE in Y. exists w2. split; [eapply step_trans; eauto|]. split; auto. rewrite M. exact Y.
Qed.
End Vector.
Lemma start_facts st n w : unused st n w -> at_end st n w /\ start st n w = [].
Proof. intros U. destruct st as [id base|id base]; simpl; auto. destruct U as (-> & _). auto. Qed.
Lemma create_end st name schema w : w_faults w = [] -> fresh_name st name w -> unblocked st name w ->
  exists h w0, create_handle b e st name schema w = (Ret (Ok h), w0) /\ step (cells_of st name) w w0 /\ w_faults w0 = [] /\
    counting st name h w0 (zeros 8 ++ []) (len (@nil Z) mod 2 ^ W) /\ bytes_at (cell_at st (schema_name name)) w0 = Some schema.
Proof.
  intros Hf (U1 & U2) Ub. lims. destruct (create_handle b e st name schema w) as [o w0] eqn:E0.
  destruct (create_handle_cases b e st name schema w o w0) as (S0 & Y); auto using unused_uncached; try (apply start_facts; auto).
  destruct Y as [(h & -> & Hw)|(_ & _ & N & _)]; [|destruct (N Hf Ub)].
  exists h, w0. split; auto. split; auto. split; [apply S0; auto|]. destruct Hw as (s & E & H1 & H2 & H3 & H4 & C & A & H5 & Bs & _).
  split; [|exact Bs]. exists s. auto.
Qed.

(** * Multivectors *)
Section Multi.
Variables (size bits : Z) (ts : vdesc) (st : storage) (name : string).
Notation is := (index_struct size bits).
Notation iname := (index_name name).
Hypotheses (Hwi : wf_struct is) (Hwf : wf_vdesc ts) (Hn : valid_name name).
Hypothesis Room : Z.max lim 8 + size <= isize_max_w W.
Lemma counting_touches P n h w w' c k : touches P w w' -> ~ P (cell_at st n) -> counting st n h w c k -> counting st n h w' c k.
Proof. intros T N (s & E & C & A & H). exists s. split; auto. split; auto. split; auto. eapply at_pos_touches; eauto. rewrite C. auto. Qed.
Lemma other_cells : cell_at st iname <> cell_at st name.
Proof. destruct (index_cells st name Hn) as ((A & _) & _). intros E. apply A. left. auto. Qed.
(** [I] and [D] are written, [ri] and [rd] are not; [cnt] entries of the index. *)
Definition mv_w (v : multi_vec) (w : world) (I ri : list Z) (cnt : Z) (D rd : list Z) : Prop :=
  ev_w st iname (mv_index v) w I ri cnt /\ counting st name (mv_handle v) w (zeros 8 ++ D) (len D mod 2 ^ W) /\
  mv_data v = rd ++ zeros 8 /\ mv_flushed v = len D mod 2 ^ W /\ (b = Debug -> len D < 2 ^ W).
Notation cells := (fun c => c = cell_at st iname \/ c = cell_at st name).
Lemma index_step w w1 : step (eq (cell_at st iname)) w w1 -> step cells w w1.
Proof. apply step_mono. intros c <-. auto. Qed.
Lemma data_step w w1 : step (eq (cell_at st name)) w w1 -> step cells w w1.
Proof. apply step_mono. intros c <-. auto. Qed.
Lemma mv_flush_end v w I ri cnt D rd : mv_w v w I ri cnt D rd -> len rd + 8 <= isize_max_w W -> w_faults w = [] ->
  exists w1, step cells w w1 /\ w_faults w1 = [] /\
   ((b = Debug /\ 2 ^ W <= len D + len rd /\ mv_flush_w W b v w = (Panic, w1)) \/
     exists v1, mv_flush_w W b v w = (Ret (Ok tt, v1), w1) /\ mv_w v1 w1 I ri cnt (D ++ rd) []).
Proof.
  intros (Hi & K & Ed & Ef & Hd) L Hf. lims. destruct (flush_slice_w rd L) as (E1 & d & E2 & E3).
  remember (mv_flush_w W b v w) as m eqn:M. unfold mv_flush_w, mbind, lift in M. rewrite Ed, E1, E2, E3 in M.
  destruct (write_w_data st name _ w D rd K Hf Hd) as (w1 & S & Hf1 & [(Bd & Lo & X)|(h1 & X & Lt & K1)]);
    exists w1; (split; [apply data_step; auto|]); split; auto; rewrite X in M; [left; auto|right].
  assert (Eu : uadd_w W b (mv_flushed v) (len rd) = Ret (len (D ++ rd) mod 2 ^ W)).
  { unfold uadd_w. pose proof (len_nonneg rd). pose proof (len_nonneg D). assert (Hm : 0 <= len D mod 2 ^ W < 2 ^ W) by (apply Z.mod_pos_bound; lia).
    assert (Em : len (D ++ rd) mod 2 ^ W = (len D mod 2 ^ W + len rd) mod 2 ^ W) by (rewrite len_app, Z.add_mod_idemp_l by lia; reflexivity).
    rewrite Ef, Em, wrap_w_eq by lia. rewrite len_app in Lt.
    destruct (Z.ltb_spec (len D mod 2 ^ W + len rd) (2 ^ W)) as [H1|H1]; [rewrite (Z.mod_small (_ + _)) by lia; reflexivity|].
    destruct b; auto. rewrite (Z.mod_small (len D)) in H1 by lia. specialize (Lt eq_refl). lia. }
  rewrite Eu in M. eexists. split; [exact M|]. split; [|split; [exact K1|split; [reflexivity|split; [reflexivity|exact Lt]]]].
  destruct Hi as (Ki & Hi). split; auto. eapply counting_touches; [apply S| |exact Ki]. intros X1. apply other_cells. auto.
Qed.
Lemma index_w_end v w I ri cnt D rd : mv_w v w I ri cnt D rd -> len ri + 8 <= isize_max_w W -> len rd + 8 <= isize_max_w W ->
  len D + len rd < 2 ^ bits -> w_faults w = [] ->
  exists w1, step cells w w1 /\ w_faults w1 = [] /\
   ((b = Debug /\ (2 ^ W <= len I + len ri \/ 2 ^ W <= cnt + 1 \/ 2 ^ W <= len D + len rd + 8) /\
     mv_add_to_index_w W b e lim size bits v w = (Panic, w1)) \/
     exists v1 I' ri', mv_add_to_index_w W b e lim size bits v w = (Ret (Ok tt, v1), w1) /\ mv_w v1 w1 I' ri' (cnt + 1) D rd /\
      I' ++ ri' = I ++ ri ++ record_bytes is [(len D + len rd) mod 2 ^ W] /\ len ri' + 8 <= isize_max_w W /\
      (b = Debug -> len D + len rd + 8 < 2 ^ W)).
Proof.
  intros (Hi & K & Ed & Ef & Hd) Li' Ld Hb Hf. lims. pose proof Hwi as (Hp & _). cbn [index_struct s_size] in Hp.
  remember (mv_add_to_index_w W b e lim size bits v w) as m eqn:M. unfold mv_add_to_index_w in M. unfold mbind at 1 in M.
  destruct (grow_w_end st iname is (mv_index v) w I ri cnt Hp Room Hi Li' Hf) as (w1 & S & Hf1 & [(Bd & Lo & X)|(h1 & I' & ri' & X & Ec & L' & Ki & Hdi)]);
    exists w1; (split; [apply index_step; auto|]); split; auto; rewrite X in M; [left; split; auto; split; [lia|auto]|].
  unfold mbind, lift in M. rewrite Ed, Ef in M.
  assert (Hnn : len (rd ++ zeros 8) = len rd + 8) by (rewrite len_app; reflexivity). rewrite Hnn in M.
  pose proof (len_nonneg rd). pose proof (len_nonneg D). assert (Hm : 0 <= len D mod 2 ^ W < 2 ^ W) by (apply Z.mod_pos_bound; lia).
  set (off := (len D + len rd) mod 2 ^ W).
  assert (Ho : 0 <= off < 2 ^ bits).
  { unfold off. split; [apply Z.mod_pos_bound; lia|]. assert (X1 := Z.mod_le (len D + len rd) (2 ^ W) ltac:(lia) ltac:(lia)). lia. }
  assert (Fin : forall x, x = off -> match ev_set b e is [(0%nat, x)] (len ri') (mkEV (ri' ++ zeros (s_size is) ++ zeros 8) ((cnt + 1) mod 2 ^ W) h1) w1 with
      | (Ret a, w2) => mret (Ok tt : result unit io_kind, mkMV a (rd ++ zeros 8) (mv_handle v) (len D mod 2 ^ W)) w2
      | (Panic, w2) => (Panic, w2) | (UB, w2) => (UB, w2) | (Crash, w2) => (Crash, w2) end =
    (Ret (Ok tt, mkMV (mkEV ((ri' ++ record_bytes is [off]) ++ zeros 8) ((cnt + 1) mod 2 ^ W) h1) (rd ++ zeros 8) (mv_handle v) (len D mod 2 ^ W)), w1)).
  { intros x ->. unfold ev_set, mbind, lift. cbn [ev_data ev_len ev_handle].
    assert (Hs : sets_ok is [(0%nat, off)]).
    { constructor; [|constructor]. cbn [fst snd]. split; [simpl; lia|]. unfold in_range. simpl. lia. }
    rewrite (set_bytes b e is [(0%nat, off)] ri' Hwi Hs).
    rewrite <- app_assoc. reflexivity. }
  unfold uadd_w in M. rewrite wrap_w_eq in M by lia.
  assert (New : mv_w (mkMV (mkEV ((ri' ++ record_bytes is [off]) ++ zeros 8) ((cnt + 1) mod 2 ^ W) h1) (rd ++ zeros 8) (mv_handle v) (len D mod 2 ^ W)) w1
      I' (ri' ++ record_bytes is [off]) (cnt + 1) D rd).
  { split; [|split; [|auto]].
    - split; [exact Ki|]. split; [reflexivity|]. split; [reflexivity|]. destruct Hi as (_ & _ & _ & Hc & _). split; [lia|auto].
    - eapply counting_touches; [apply S| |exact K]. intros X1. apply other_cells. auto. }
  assert (Cat : I' ++ ri' ++ record_bytes is [off] = I ++ ri ++ record_bytes is [off]) by (rewrite !app_assoc, Ec; reflexivity).
  assert (Len : len (ri' ++ record_bytes is [off]) + 8 <= isize_max_w W).
  { rewrite len_app, record_bytes_len by (cbn [s_size index_struct]; lia). cbn [s_size index_struct] in *. lia. }
  destruct (Z.ltb_spec (len D mod 2 ^ W + (len rd + 8)) (2 ^ W)) as [H1|H1].
  - unfold usub_w, PADDING_SIZE in M. rewrite wrap_w_ok in M by lia. rewrite Fin in M.
    2:{ unfold off. rewrite <- Z.add_mod_idemp_l by lia. rewrite (Z.mod_small (_ + _)) by lia. lia. }
    right. eexists. exists I', (ri' ++ record_bytes is [off]). split; [exact M|]. split; [exact New|]. split; [exact Cat|]. split; [exact Len|].
    intros Bd. specialize (Hd Bd). rewrite (Z.mod_small (len D)) in H1 by lia. lia.
  - destruct b eqn:Eb.
    + left. split; auto. split; [|auto]. rewrite (Z.mod_small (len D)) in H1 by (specialize (Hd eq_refl); lia). lia.
    + right. unfold usub_w, PADDING_SIZE in M.
      assert (Eo : off = ((len D mod 2 ^ W + (len rd + 8)) mod 2 ^ W - 8) mod 2 ^ W).
      { rewrite Zminus_mod_idemp_l. unfold off. rewrite <- Z.add_mod_idemp_l by lia. f_equal. lia. }
      assert (Hx : 0 <= (len D mod 2 ^ W + (len rd + 8)) mod 2 ^ W < 2 ^ W) by (apply Z.mod_pos_bound; lia).
      assert (Ew : wrap_w W Release ((len D mod 2 ^ W + (len rd + 8)) mod 2 ^ W - 8) = Ret off).
      { unfold wrap_w. rewrite Eo. set (y := (len D mod 2 ^ W + (len rd + 8)) mod 2 ^ W - 8).
        destruct ((0 <=? y) && (y <? 2 ^ W)) eqn:Q; auto. rewrite Z.mod_small by lia. reflexivity. }
      rewrite Ew, Fin in M by auto.
      eexists. exists I', (ri' ++ record_bytes is [off]). split; [exact M|]. split; [exact New|]. split; [exact Cat|]. split; [exact Len|]. discriminate.
Qed.
Notation wrapped := (narrow_index W size bits).
Lemma mv_finish_end v w I ri cnt D rd : mv_w v w I ri cnt D rd -> len ri + 8 <= isize_max_w W -> len rd + 8 <= isize_max_w W ->
  cnt <= len I + len ri -> len D + len rd < 2 ^ bits -> w_faults w = [] ->
  let X := I ++ ri ++ wrapped (len D + len rd) [] in let Y := D ++ rd in
  exists w1, step cells w w1 /\ w_faults w1 = [] /\
    ((b = Debug /\ (2 ^ W <= len X \/ 2 ^ W <= len Y + 8) /\ mv_finish_w W b e lim size bits v w = (Panic, w1)) \/
     ((b = Debug -> len X < 2 ^ W /\ len Y + 8 < 2 ^ W) /\ mv_finish_w W b e lim size bits v w = (Ret (Ok tt), w1) /\
       bytes_at (cell_at st iname) w1 = Some (le_bytes 8 (len X mod 2 ^ W) ++ X ++ zeros 8) /\
       bytes_at (cell_at st name) w1 = Some (le_bytes 8 (len Y mod 2 ^ W) ++ Y ++ zeros 8))).
Proof.
  intros Hi Li' Ld Hc Hb Hf X Y. lims. pose proof Hwi as (Hp & _). cbn [index_struct s_size] in Hp.
  assert (EX : X = I ++ ri ++ record_bytes is [(len D + len rd) mod 2 ^ W]).
  { unfold X, narrow_index. cbn [starts map List.concat]. rewrite app_nil_r. reflexivity. }
  assert (LX : len X = len I + len ri + size) by (rewrite EX, !len_app, record_bytes_len by (cbn [s_size index_struct]; lia); cbn [s_size index_struct]; lia).
  assert (LY : len Y = len D + len rd) by apply len_app.
  remember (mv_finish_w W b e lim size bits v w) as m eqn:M. unfold mv_finish_w in M. unfold mbind at 1 in M.
  destruct (index_w_end v w I ri cnt D rd Hi Li' Ld Hb Hf) as (w1 & S1 & Hf1 & [(Bd & Lo & E1)|(v1 & I' & ri' & E1 & I1 & Ec & L' & Hd1)]); rewrite E1 in M.
  { exists w1. split; auto. split; auto. left. split; auto. split; [lia|auto]. }
  unfold mbind at 1 in M. pose proof I1 as (_ & _ & Ed1 & _).
  destruct (mv_flush_end v1 w1 I' ri' _ D rd I1 Ld Hf1) as (w2 & S2 & Hf2 & [(Bd & Lo & E2)|(v2 & E2 & I2)]); rewrite E2 in M.
  { exists w2. split; [eapply step_trans; eauto|]. split; auto. left. split; auto. split; [lia|auto]. }
  unfold mbind at 1 in M. destruct I2 as (Hi2 & K2 & _ & _ & Hd2).
  destruct (ev_finish_end st iname (mv_index v2) w2 I' ri' _ Hi2 L' Hf2) as (w3 & S3 & Hf3 & E3). rewrite Ec, <- EX in E3.
  assert (K3 : counting st name (mv_handle v2) w3 (zeros 8 ++ Y) (len Y mod 2 ^ W)).
  { eapply counting_touches; [apply S3| |exact K2]. intros Q. apply other_cells. auto. }
  apply index_step in S3.
  destruct E3 as [(Bd & Lo & E3)|(Hd3 & E3 & B3)]; rewrite E3 in M.
  { exists w3. split; [eapply step_trans; eauto; eapply step_trans; eauto|]. split; auto. }
  destruct (finish_handle_end st name _ w3 Y K3 Hf3) as (w4 & S4 & Hf4 & E4 & B4). rewrite E4 in M.
  exists w4. split; [eapply step_trans; eauto; eapply step_trans; eauto; eapply step_trans; eauto; apply data_step; auto|]. split; auto.
  right. split; [intros Bd; split; [apply Hd3; auto|specialize (Hd1 Bd); lia]|]. split; auto. split; auto.
  erewrite bytes_at_touches; [exact B3|apply S4|]. intros Q. apply other_cells. auto.
Qed.
Lemma mv_fill_end els : Forall (items_ok ts) els -> Forall (fun items => Z.max lim 8 + len (items_bytes ts items) <= isize_max_w W) els ->
  forall v w I ri cnt D rd, mv_w v w I ri cnt D rd -> len ri + 8 <= isize_max_w W -> len rd + 8 <= isize_max_w W ->
  let bs := map (items_bytes ts) els in
  cnt <= len I + len ri -> len D + len rd + len (List.concat bs) < 2 ^ bits -> w_faults w = [] ->
  let X := I ++ ri ++ wrapped (len D + len rd) bs in let Y := D ++ rd ++ List.concat bs in
  exists w1, step cells w w1 /\ w_faults w1 = [] /\
    ((b = Debug /\ (2 ^ W <= len X \/ 2 ^ W <= len Y + 8) /\
      mtry (fun k => EIo k name) (mv_fill_w W b e lim size bits ts els v) (mv_finish_w W b e lim size bits) w = (Panic, w1)) \/
     ((b = Debug -> len X < 2 ^ W /\ len Y + 8 < 2 ^ W) /\
       mtry (fun k => EIo k name) (mv_fill_w W b e lim size bits ts els v) (mv_finish_w W b e lim size bits) w = (Ret (Ok tt), w1) /\
       bytes_at (cell_at st iname) w1 = Some (le_bytes 8 (len X mod 2 ^ W) ++ X ++ zeros 8) /\
       bytes_at (cell_at st name) w1 = Some (le_bytes 8 (len Y mod 2 ^ W) ++ Y ++ zeros 8))).
Proof.
  lims. pose proof Hwi as (Hp & _). cbn [index_struct s_size] in Hp.
  induction els as [|items els IH]; intros Fi Fr v w I ri cnt D rd Hi Li' Ld bs Hc Hb Hf X Y.
  - subst X Y bs. cbn [map List.concat] in *. rewrite app_nil_r. apply mv_finish_end with (cnt := cnt); auto. rewrite len_nil in Hb. lia.
  - inversion Fi as [|? ? Hit Fi']; subst. inversion Fr as [|? ? Hr Fr']; subst.
    set (m1 := items_bytes ts items) in *. set (bs1 := map (items_bytes ts) els).
    assert (Ebs : bs = m1 :: bs1) by reflexivity. rewrite Ebs in Hb. cbn [List.concat] in Hb. rewrite len_app in Hb.
    assert (EX0 : X = I ++ ri ++ record_bytes is [(len D + len rd) mod 2 ^ W] ++ wrapped (len D + len rd + len m1) bs1) by reflexivity.
    assert (EY0 : Y = D ++ rd ++ m1 ++ List.concat bs1) by reflexivity.
    clearbody X Y. clear bs Ebs.
    pose proof (len_nonneg m1). pose proof (len_nonneg (List.concat bs1)). pose proof (len_nonneg D). pose proof (len_nonneg rd).
    pose proof (len_nonneg I). pose proof (len_nonneg ri).
    assert (LX : len X = len I + len ri + size + len (wrapped (len D + len rd + len m1) bs1)).
    { rewrite EX0, !len_app, record_bytes_len by (cbn [s_size index_struct]; lia). cbn [s_size index_struct]. lia. }
    assert (LY : len Y = len D + len rd + len m1 + len (List.concat bs1)) by (rewrite EY0, !len_app; lia).
    assert (Hwr := len_nonneg (wrapped (len D + len rd + len m1) bs1)).
    remember (mtry (fun k => EIo k name) (mv_fill_w W b e lim size bits ts (items :: els) v) (mv_finish_w W b e lim size bits) w) as m eqn:M.
    cbn [mv_fill_w] in M. unfold mtry, mbind at 1 in M. unfold mbind at 1 in M. unfold mv_grow_w in M. unfold mbind at 1 in M.
    pose proof Hi as (_ & _ & Ed & _).
    assert (Hnn : len (mv_data v) = len rd + 8) by (rewrite Ed, len_app; reflexivity). rewrite Hnn in M.
    (* after the flush *)
    assert (Go : forall v1 w1 D1 rd1, mv_w v1 w1 I ri cnt D1 rd1 -> w_faults w1 = [] -> D1 ++ rd1 = D ++ rd ->
      len rd1 + 8 <= Z.max lim 8 -> step cells w w1 ->
      m = mbind (mbind (fun w => mv_add_to_index_w W b e lim size bits v1 w) (fun r => match r with
            | (Ok _, v) => let! v := mv_add_w W b e ts items v in mv_fill_w W b e lim size bits ts els v
            | (Er k, v) => let! _ := mv_drop v in mret (Er k) end))
          (fun r => match r with Ok v => mv_finish_w W b e lim size bits v | Er k => mret (Er (EIo k name)) end) w1 ->
      exists w1, step cells w w1 /\ w_faults w1 = [] /\
        ((b = Debug /\ (2 ^ W <= len X \/ 2 ^ W <= len Y + 8) /\ m = (Panic, w1)) \/
         ((b = Debug -> len X < 2 ^ W /\ len Y + 8 < 2 ^ W) /\ m = (Ret (Ok tt), w1) /\
           bytes_at (cell_at st iname) w1 = Some (le_bytes 8 (len X mod 2 ^ W) ++ X ++ zeros 8) /\
           bytes_at (cell_at st name) w1 = Some (le_bytes 8 (len Y mod 2 ^ W) ++ Y ++ zeros 8)))).
    { clear M. intros v1 w1 D1 rd1 I1 Hf1 Ec L1 S1 M. unfold mbind at 1 in M. unfold mbind at 1 in M.
      assert (Lc : len D1 + len rd1 = len D + len rd) by (rewrite <- !len_app, Ec; reflexivity).
      destruct (index_w_end v1 w1 I ri cnt D1 rd1 I1 Li' ltac:(lia) ltac:(lia) Hf1)
        as (w2 & S2 & Hf2 & [(Bd & Lo & E1)|(v2 & I' & ri' & E1 & I2 & Ei & L2' & _)]); rewrite E1 in M.
      { exists w2. split; [eapply step_trans; eauto|]. split; auto. left. split; auto. split; [lia|auto]. }
      rewrite Lc in Ei. assert (Lci := f_equal len Ei). rewrite !len_app, record_bytes_len in Lci by (cbn [s_size index_struct]; lia). cbn [s_size index_struct] in Lci.
      unfold mv_add_w in M. unfold mbind at 1 in M. unfold mbind at 1 in M. unfold lift in M. pose proof I2 as (Hi2 & K2 & Ed2 & Ef2 & Hd2). rewrite Ed2 in M.
      rewrite items_bytes_add_w in M by (auto; fold m1; lia). fold m1 in M.
      destruct (IH Fi' Fr' (mkMV (mv_index v2) ((rd1 ++ m1) ++ zeros 8) (mv_handle v2) (mv_flushed v2)) w2 I' ri' (cnt + 1) D1 (rd1 ++ m1)) as (w3 & S3 & Hf3 & Z3); auto.
      - split; [exact Hi2|]. split; [exact K2|]. split; [reflexivity|]. split; [exact Ef2|exact Hd2].
      - rewrite len_app. lia.
      - lia.
      - fold bs1. rewrite len_app. lia.
      - fold bs1 in Z3. rewrite (len_app rd1 m1) in Z3. replace (len D1 + (len rd1 + len m1)) with (len D + len rd + len m1) in Z3 by lia.
        assert (EX : I' ++ ri' ++ wrapped (len D + len rd + len m1) bs1 = X).
        { rewrite app_assoc, Ei, EX0, <- !app_assoc. reflexivity. }
        assert (EY : D1 ++ (rd1 ++ m1) ++ List.concat bs1 = Y) by (rewrite EY0, !app_assoc, Ec; reflexivity).
        rewrite EX, EY in Z3. exists w3. split; [eapply step_trans; eauto; eapply step_trans; eauto|]. split; auto. rewrite M. exact Z3. }
    destruct (Z.ltb_spec lim (len rd + 8)) as [Hl|Hl].
    + destruct (mv_flush_end v w I ri cnt D rd Hi Ld Hf) as (w1 & S1 & Hf1 & [(Bd & Lo & E1)|(v1 & E1 & I1)]); rewrite E1 in M.
      * exists w1. split; auto. split; auto. left. split; auto. split; [lia|auto].
      * apply (Go v1 w1 (D ++ rd) []); auto; [apply app_nil_r|rewrite len_nil; lia].
    + apply (Go v w D rd); auto; [lia|apply step_refl].
Qed.
End Multi.
End Width.

(** * Whole sessions *)
Theorem vector_end W b e lim s st name schema els w : 1 <= W <= 64 ->
  wf_struct s -> Forall (sets_ok s) els -> Z.max lim 8 + s_size s <= 2 ^ (W - 1) - 1 ->
  w_faults w = [] -> fresh_name st name w -> unblocked st name w ->
  let D := elements_bytes s els in
  exists w1,
    if match b with Debug => 2 ^ W <=? len D | Release => false end
    then vector_session_w W b e lim s st name schema els w = (Panic, w1)
    else vector_session_w W b e lim s st name schema els w = (Ret (Ok tt), w1) /\
      bytes_at (cell_at st name) w1 = Some (le_bytes 8 (len D mod 2 ^ W) ++ D ++ zeros 8) /\
      bytes_at (cell_at st (schema_name name)) w1 = Some schema.
Proof.
  intros HW Hwf Fs Room Hf Fr Ub D. destruct (limits W HW) as (Lp & L2 & Li & Lm). pose proof Hwf as (Hp & _).
  destruct (create_end W b e HW st name schema w Hf Fr Ub) as (h & w0 & E0 & S0 & Hf0 & K & Bs).
  assert (Hi : ev_w W b st name (ev_new h) w0 [] [] 0).
  { split; [exact K|]. split; [reflexivity|]. split; [rewrite Z.mod_0_l by lia; reflexivity|]. split; [lia|].
    intros _. rewrite len_nil. lia. }
  destruct (fill_finish_end W b e lim HW st name s els Hwf Fs Room (ev_new h) w0 [] [] 0 Hi ltac:(rewrite len_nil; lia) ltac:(rewrite len_nil; lia) Hf0)
    as (w1 & S1 & _ & X). cbn [app] in X. fold D in X. exists w1.
  assert (Ev : vector_session_w W b e lim s st name schema els w = mtry (fun k => EIo k name) (ev_fill_w W b e lim s els (ev_new h)) (ev_finish_w W b e) w0).
  { unfold vector_session_w, create_external_vector. unfold mtry at 1, mbind at 1. unfold mtry at 1, mbind at 1. rewrite E0. reflexivity. }
  rewrite Ev. destruct X as [(-> & Lo & X)|(Lo & X & B)].
  - replace (2 ^ W <=? len D) with true by lia. exact X.
  - replace (match b with Debug => 2 ^ W <=? len D | Release => false end) with false by (destruct b; auto; specialize (Lo eq_refl); lia).
    split; auto. split; auto. erewrite bytes_at_touches; [exact Bs|apply S1|]. intros H. apply (cell_schema st name). auto.
Qed.
Theorem multi_end W b e lim size bits ts st name schema els w : 1 <= W <= 64 ->
  wf_struct (index_struct size bits) -> wf_vdesc ts -> valid_name name -> Forall (items_ok ts) els ->
  Z.max lim 8 + size <= 2 ^ (W - 1) - 1 -> Forall (fun items => Z.max lim 8 + len (items_bytes ts items) <= 2 ^ (W - 1) - 1) els ->
  len (List.concat (map (items_bytes ts) els)) < 2 ^ bits ->
  w_faults w = [] -> mv_fresh st name w -> mv_unblocked st name w ->
  let I := narrow_index W size bits 0 (map (items_bytes ts) els) in let D := List.concat (map (items_bytes ts) els) in
  exists w1,
    if match b with Debug => (2 ^ W <=? len I) || (2 ^ W <=? len D + 8) | Release => false end
    then multi_session_w W b e lim size bits ts st name schema els w = (Panic, w1)
    else multi_session_w W b e lim size bits ts st name schema els w = (Ret (Ok tt), w1) /\
      bytes_at (cell_at st (index_name name)) w1 = Some (le_bytes 8 (len I mod 2 ^ W) ++ I ++ zeros 8) /\
      bytes_at (cell_at st (schema_name (index_name name))) w1 = Some (index_schema schema) /\
      bytes_at (cell_at st name) w1 = Some (le_bytes 8 (len D mod 2 ^ W) ++ D ++ zeros 8) /\
      bytes_at (cell_at st (schema_name name)) w1 = Some schema.
Proof.
  intros HW Hwi Hwf Hn Fi Room Fr Hb Hf Fre Ub I D. destruct (limits W HW) as (Lp & L2 & Li & Lm). pose proof Hwi as (Hp & _). cbn [index_struct s_size] in Hp.
  destruct (index_cells st name Hn) as ((NC1 & NC2) & (NC3 & NC4)).
  destruct (create_multi_vector b e st name schema w) as [o w0] eqn:E0.
  destruct (create_mv_cases b e size bits ts st name schema Hn w o w0 Fre E0) as (S0 & [(v & -> & Hi)|(_ & _ & N & _)]); [|destruct (N Hf Ub)].
  assert (Hf0 : w_faults w0 = []) by (apply S0; auto).
  destruct Hi as (Wi & ri & ci & Wd & rd & cd & Hi & Ed & Ef & _ & Ec & _ & Hw & Cl). destruct (Cl eq_refl) as (Ci & Cd).
  cbn [List.concat] in Ec. apply app_eq_nil in Ec as [-> ->].
  destruct Hi as (Edi & Eli & _ & (ms & Em & G) & Hwi').
  assert (ms = []) by (inversion G; reflexivity). subst ms. cbn [List.concat] in Em. apply app_eq_nil in Em as [-> ->]. rewrite Ci in Hwi'. rewrite Cd in Hw.
  assert (Bs : bytes_at (cell_at st (schema_name name)) w0 = Some schema) by (eapply writing_schema; eauto).
  assert (Bsi : bytes_at (cell_at st (schema_name (index_name name))) w0 = Some (index_schema schema)) by (eapply writing_schema; eauto).
  assert (K : forall n sch h, writing st n sch h w0 [] (zeros 8 ++ []) -> counting st n h w0 (zeros 8 ++ []) (len (@nil Z) mod 2 ^ W)).
  { intros n sch h (s & E & H1 & H2 & H3 & H4 & C & A & _). exists s. auto. }
  assert (Hm : mv_w W b st name v w0 [] [] 0 [] []).
  { split; [split; [apply (K _ _ _ Hwi')|]|].
    - split; auto. split; [rewrite Z.mod_0_l by lia; exact Eli|]. split; [lia|]. intros _. rewrite len_nil. lia.
    - split; [apply (K _ _ _ Hw)|]. split; auto. split; [rewrite len_nil, Z.mod_0_l by lia; exact Ef|]. intros _. rewrite len_nil. lia. }
  destruct (mv_fill_end W b e lim HW size bits ts st name Hwi Hwf Hn Room els Fi Fr v w0 [] [] 0 [] [] Hm) as (w1 & S1 & _ & X);
    rewrite ?len_nil; auto; try lia.
  cbn [app] in X. rewrite len_nil, Z.add_0_l in X. fold I D in X. exists w1.
  assert (Ev : multi_session_w W b e lim size bits ts st name schema els w =
    mtry (fun k => EIo k name) (mv_fill_w W b e lim size bits ts els v) (mv_finish_w W b e lim size bits) w0).
  { unfold multi_session_w. unfold mtry at 1, mbind at 1. rewrite E0. reflexivity. }
  rewrite Ev. destruct X as [(-> & Lo & X)|(Lo & X & B1 & B2)].
  - replace ((2 ^ W <=? len I) || (2 ^ W <=? len D + 8)) with true by lia. exact X.
  - replace (match b with Debug => (2 ^ W <=? len I) || (2 ^ W <=? len D + 8) | Release => false end) with false
      by (destruct b; auto; specialize (Lo eq_refl); lia).
    assert (Keep : forall n, cell_at st (schema_name n) <> cell_at st (index_name name) -> cell_at st (schema_name n) <> cell_at st name ->
      bytes_at (cell_at st (schema_name n)) w1 = bytes_at (cell_at st (schema_name n)) w0).
    { intros n H1 H2. eapply bytes_at_touches; [apply S1|]. intros [H|H]; auto. }
    split; auto. split; auto. split; [rewrite Keep; auto|split; auto; rewrite Keep; auto].
    + apply cell_schema.
    + intros H. apply NC4. left. auto.
    + intros H. apply NC2. left. auto.
    + apply cell_schema.
Qed.

(** * Reading *)
Lemma narrow_same W size bits ls : forall a, 0 <= a -> a + len (List.concat ls) < 2 ^ W ->
  narrow_index W size bits a ls = List.concat (map (fun x => record_bytes (index_struct size bits) [x]) (starts a ls)).
Proof.
  induction ls as [|l ls IH]; intros a Ha H; unfold narrow_index; cbn [starts map List.concat] in *.
  - rewrite len_nil in H. rewrite Z.mod_small by lia. reflexivity.
  - rewrite len_app in H. pose proof (len_nonneg l). pose proof (len_nonneg (List.concat ls)).
    fold (narrow_index W size bits (a + len l) ls). rewrite IH by lia. rewrite Z.mod_small by lia. reflexivity.
Qed.
Lemma narrow_len W size bits ls : 0 <= size -> forall a, len (narrow_index W size bits a ls) = (Z.of_nat (length ls) + 1) * size.
Proof.
  intros Hs. induction ls as [|l ls IH]; intros a; unfold narrow_index; cbn [starts map List.concat].
  - rewrite app_nil_r, record_bytes_len; auto. cbn. lia.
  - rewrite len_app. fold (narrow_index W size bits (a + len l) ls). rewrite IH, record_bytes_len; auto.
    cbn [s_size index_struct length]. lia.
Qed.
Lemma narrow_bytes W size bits ls : forall a, bytes_ok (narrow_index W size bits a ls).
Proof.
  induction ls as [|l ls IH]; intros a; unfold narrow_index; cbn [starts map List.concat]; apply bytes_ok_app;
    (split; [apply le_bytes_ok|]); [constructor|apply IH].
Qed.
(** What a 64-bit reader finds behind a header that lost its high bits. *)
Lemma narrow_read W b e base name w D schema : 0 <= W ->
  bytes_at (cell_at (FileStorage 0 base) name) w = Some (le_bytes 8 (len D mod 2 ^ W) ++ D ++ zeros 8) ->
  bytes_at (cell_at (FileStorage 0 base) (schema_name name)) w = Some schema ->
  data_ok D -> schema_ok (FileStorage 0 base) schema ->
  if len D <? 2 ^ W
  then exists d, fresh_read b e base name schema w = Ret (Ok d) /\ sl_bytes d = D /\ slice_ok d
  else fresh_read b e base name schema w = Ret (Er EUnexpectedDataSize).
Proof.
  intros HW F1 F2 Do (U & _ & _ & Ne). specialize (Ne eq_refl). pose proof (len_nonneg D).
  assert (Hp : 0 < 2 ^ W) by (apply Z.pow_pos_nonneg; lia).
  destruct (Z.ltb_spec (len D) (2 ^ W)) as [L|L].
  - rewrite Z.mod_small in F1 by lia. exact (fresh_read_framed b e base name w D schema F1 F2 Do Ne U).
  - eapply low_header_read; eauto. split; [apply Z.mod_pos_bound; lia|].
    assert (len D mod 2 ^ W < 2 ^ W) by (apply Z.mod_pos_bound; lia). lia.
Qed.

Theorem vector_narrow_read W b b' e e' lim s id base name schema els w w1 : 1 <= W <= 64 ->
  let st := FileStorage id base in
  wf_struct s -> Forall (sets_ok s) els -> Z.max lim 8 + s_size s <= 2 ^ (W - 1) - 1 ->
  len (elements_bytes s els) + 16 <= isize_max -> schema_ok st schema ->
  w_faults w = [] -> fresh_name st name w -> unblocked st name w ->
  vector_session_w W b e lim s st name schema els w = (Ret (Ok tt), w1) ->
  if len (elements_bytes s els) <? 2 ^ W
  then exists sl, fresh_read b' e' base name schema w1 = Ret (Ok sl) /\ slice_ok sl /\
    records s (sl_bytes sl) = elements s els /\ array_of s (sl_bytes sl) (elements s els)
  else fresh_read b' e' base name schema w1 = Ret (Er EUnexpectedDataSize).
Proof.
  intros HW st Hwf Fs Room Ld So Hf Fr Ub R.
  destruct (vector_end W b e lim s st name schema els w HW Hwf Fs Room Hf Fr Ub) as (w2 & X). rewrite R in X.
  destruct (elements_read s els Hwf Fs) as (Bd & Rr & A).
  destruct (match b with Debug => 2 ^ W <=? len (elements_bytes s els) | Release => false end); [discriminate|].
  destruct X as (E & F1 & F2). injection E as <-.
  assert (X := narrow_read W b' e' base name w1 _ schema ltac:(lia) F1 F2 (conj Bd Ld) So).
  destruct (len (elements_bytes s els) <? 2 ^ W); auto. destruct X as (d & X1 & X2 & X3). exists d. rewrite X2. auto.
Qed.
Theorem multi_narrow_read W b b' e e' lim size bits ts id base name schema els w w1 : 1 <= W <= 64 ->
  let st := FileStorage id base in
  let I := narrow_index W size bits 0 (map (items_bytes ts) els) in let D := List.concat (map (items_bytes ts) els) in
  wf_struct (index_struct size bits) -> wf_vdesc ts -> valid_name name -> Forall (items_ok ts) els ->
  Z.max lim 8 + size <= 2 ^ (W - 1) - 1 -> Forall (fun items => Z.max lim 8 + len (items_bytes ts items) <= 2 ^ (W - 1) - 1) els ->
  len D < 2 ^ bits -> len D + 16 <= isize_max -> len I + 16 <= isize_max -> mv_schema_ok st schema ->
  w_faults w = [] -> mv_fresh st name w -> mv_unblocked st name w ->
  multi_session_w W b e lim size bits ts st name schema els w = (Ret (Ok tt), w1) ->
  if (len I <? 2 ^ W) && (len D <? 2 ^ W)
  then exists iv d, fresh_read b' e' base (index_name name) (index_schema schema) w1 = Ret (Ok iv) /\
    fresh_read b' e' base name schema w1 = Ret (Ok d) /\ mav_shows ts size bits (mkMav iv d) (buckets ts els)
  else fresh_read b' e' base (index_name name) (index_schema schema) w1 = Ret (Er EUnexpectedDataSize) \/
    fresh_read b' e' base name schema w1 = Ret (Er EUnexpectedDataSize).
Proof.
  intros HW st I D Hwi Hwf Hn Fi Room Fr Hb Ld Li So Hf Fre Ub R.
  destruct (multi_end W b e lim size bits ts st name schema els w HW Hwi Hwf Hn Fi Room Fr Hb Hf Fre Ub) as (w2 & X). rewrite R in X.
  fold I D in X.
  assert (F := items_read ts els Hwf Fi). assert (Bb := buckets_bytes _ _ _ Hwf F). fold D in Bb.
  destruct (match b with Debug => (2 ^ W <=? len I) || (2 ^ W <=? len D + 8) | Release => false end); [discriminate|].
  destruct X as (E & F1 & F2 & F3 & F4). injection E as <-.
  assert (X1 := narrow_read W b' e' base (index_name name) w1 I (index_schema schema) ltac:(lia) F1 F2 (conj (narrow_bytes _ _ _ _ _) Li) (index_schema_ok _ _ So)).
  destruct So as (So & _).
  assert (X2 := narrow_read W b' e' base name w1 D schema ltac:(lia) F3 F4 (conj Bb Ld) So).
  destruct (len I <? 2 ^ W); [|left; exact X1]. destruct (Z.ltb_spec (len D) (2 ^ W)) as [L|L]; [|right; exact X2]. cbn [andb].
  destruct X1 as (iv & X1 & X1b & X1c). destruct X2 as (d & X2 & X2b & X2c). exists iv, d. split; auto. split; auto.
  assert (A := index_bytes_array size bits ts els Hwi).
  destruct (index_array Debug LE size bits Hwi _ _ (bounds_range bits (map (items_bytes ts) els) Hb) A) as (Rr & _).
  apply (parts_show size bits ts (map (items_bytes ts) els)); auto. rewrite X1b. unfold I. rewrite narrow_same by (fold D; lia). exact Rr.
Qed.

(** * Sessions that succeed and leave nothing readable *)
Theorem vector_lost W e lim s id base name schema w : 1 <= W <= 62 ->
  let st := FileStorage id base in
  wf_struct s -> Z.max lim 8 + s_size s <= 2 ^ (W - 1) - 1 -> s_size s * 2 ^ W + 16 <= isize_max -> schema_ok st schema ->
  w_faults w = [] -> fresh_name st name w -> unblocked st name w ->
  exists els w1, Forall (sets_ok s) els /\ vector_session_w W Release e lim s st name schema els w = (Ret (Ok tt), w1) /\
    forall b' e', fresh_read b' e' base name schema w1 = Ret (Er EUnexpectedDataSize).
Proof.
  intros HW st Hwf Room Sz So Hf Fr Ub. pose proof Hwf as (Hp & _). set (els := repeat (@nil (nat * Z)) (Z.to_nat (2 ^ W))).
  assert (H2 : 0 < 2 ^ W) by (apply Z.pow_pos_nonneg; lia).
  assert (Fs : Forall (sets_ok s) els) by (apply Forall_forall; intros x Hx; apply repeat_spec in Hx; subst x; constructor).
  assert (Le : len (elements_bytes s els) = 2 ^ W * s_size s) by (rewrite elements_len by auto; unfold els; rewrite repeat_length; lia).
  destruct (vector_end W Release e lim s st name schema els w ltac:(lia) Hwf Fs Room Hf Fr Ub) as (w1 & R & _).
  exists els, w1. split; auto. split; auto. intros b' e'.
  assert (X := vector_narrow_read W Release b' e e' lim s id base name schema els w w1 ltac:(lia) Hwf Fs Room ltac:(lia) So Hf Fr Ub R).
  replace (len (elements_bytes s els) <? 2 ^ W) with false in X by nia. exact X.
Qed.
Theorem multi_lost e size bits ts id base name schema w :
  let st := FileStorage id base in
  wf_struct (index_struct size bits) -> size <= 8 -> 43 <= bits -> wf_vdesc ts -> (0 < length ts)%nat -> s_size (v_struct ts 0) <= 1000 ->
  valid_name name -> mv_schema_ok st schema -> w_faults w = [] -> mv_fresh st name w -> mv_unblocked st name w ->
  exists els w1, Forall (items_ok ts) els /\
    multi_session_w 32 Release e FLUSH_LIMIT size bits ts st name schema els w = (Ret (Ok tt), w1) /\
    forall b' e', fresh_read b' e' base name schema w1 = Ret (Er EUnexpectedDataSize).
Proof.
  intros st Hwi Hs Hb Hwf Ht Hsz Hn So Hf Fre Ub. pose proof Hwi as (Hp & _). cbn [index_struct s_size] in Hp.
  destruct (wf_vdesc_nth ts 0 Hwf Ht) as (_ & (Hp0 & _)). set (k := 1 + s_size (v_struct ts 0)).
  set (items := repeat (0%nat, @nil (nat * Z)) (Z.to_nat (2 ^ 20))). set (els := repeat items (Z.to_nat (2 ^ 12))).
  assert (Oi : items_ok ts items) by (apply Forall_forall; intros x Hx; apply repeat_spec in Hx; subst x; split; [auto|constructor]).
  assert (Fi : Forall (items_ok ts) els) by (apply Forall_forall; intros x Hx; apply repeat_spec in Hx; subst x; auto).
  assert (Lc : forall (l : list Z) n, len (List.concat (repeat l n)) = Z.of_nat n * len l).
  { intros l n. induction n as [|n IH]; [reflexivity|]. cbn [repeat List.concat]. rewrite len_app, IH. lia. }
  assert (Mr : forall {A} (f : A -> list Z) x n, map f (repeat x n) = repeat (f x) n).
  { intros A f x n. induction n as [|n IH]; cbn [repeat map]; congruence. }
  assert (L1 : len (items_bytes ts items) = 2 ^ 20 * k).
  { unfold items_bytes, items. rewrite Mr, Lc. unfold item_bytes. cbn [fst snd]. rewrite len_cons, record_bytes_len by lia.
    rewrite Z2Nat.id by lia. unfold k. lia. }
  assert (L2 : len (List.concat (map (items_bytes ts) els)) = 2 ^ 32 * k).
  { unfold els. rewrite Mr, Lc, L1, Z2Nat.id by lia. lia. }
  assert (L3 : 2 ^ 43 <= 2 ^ bits) by (apply Z.pow_le_mono_r; lia).
  assert (Kb : 2 <= k <= 1001) by (unfold k; lia).
  assert (Ld : len (List.concat (map (items_bytes ts) els)) + 16 <= isize_max) by (rewrite L2; unfold isize_max; lia).
  assert (Room1 : Z.max FLUSH_LIMIT 8 + size <= 2 ^ (32 - 1) - 1) by (unfold FLUSH_LIMIT; lia).
  assert (Room2 : Forall (fun items => Z.max FLUSH_LIMIT 8 + len (items_bytes ts items) <= 2 ^ (32 - 1) - 1) els).
  { apply Forall_forall. intros x Hx. apply repeat_spec in Hx. subst x. rewrite L1. unfold FLUSH_LIMIT. lia. }
  destruct (multi_end 32 Release e FLUSH_LIMIT size bits ts st name schema els w ltac:(lia) Hwi Hwf Hn Fi Room1 Room2 ltac:(lia) Hf Fre Ub)
    as (w1 & R & F1 & F2 & F3 & F4).
  exists els, w1. split; auto. split; auto. intros b' e'.
  assert (Bb := buckets_bytes _ _ _ Hwf (items_read ts els Hwf Fi)). destruct So as (So & _).
  assert (X := narrow_read 32 b' e' base name w1 _ schema ltac:(lia) F3 F4 (conj Bb Ld) So).
  replace (len (List.concat (map (items_bytes ts) els)) <? 2 ^ 32) with false in X by lia. exact X.
Qed.
