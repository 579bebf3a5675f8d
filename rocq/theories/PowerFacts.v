(** What is left on the disk after a power failure. *)
From Verif Require Import Base BaseFacts Codec CodecSpec CodecFacts Structs StructsSpec StructsFacts Views ViewsSpec.
From Verif Require Import Storage PathFacts StorageSpec StorageFacts StorageMore StorageUse Writers HandleFacts WritersSpec EncodeFacts ExtVecFacts ExtVecUse.
From Verif Require Import MultiViews MultiSpec MultiVecFacts MultiVecUse.
From Verif Require Import Archives ArchiveSpec ArchiveFacts BuilderSpec BuilderFacts BuilderUse BuilderProgress.
From Verif Require Import MomentSpec MomentFacts MomentLogs MomentUse DuringSpec BuilderLogs DuringUse PowerSpec.
Local Open Scope list_scope.
Local Open Scope Z_scope.

Lemma read_left b e base name expected schema D T h left cf cg : let st := FileStorage 0 base in
  plan_of D T h -> data_ok D -> timeline cf T h -> timeline cg schema [] ->
  (exists x, w_files left (res_key st name) = cf x) -> (exists x, w_files left (res_key st (schema_name name)) = cg x) ->
  exists r, read_during b e (fun _ => left) base name expected = Ret r /\
    forall sl, r = Ok sl -> (exists q, schema = expected ++ q) /\ all_or_nothing D sl /\ (h = [] -> sl_bytes sl = D).
Proof.
  intros st P Dok (bd & t & s & _ & B1 & C1) (bs & t2 & s2 & _ & B2 & C2) (x & Ex) (y & Ey).
  destruct (B1 x) as (X1 & X2 & X3 & _). destruct (B2 y) as (Y1 & Y2 & _). simpl in Y2.
  assert (F1 : w_files left (res_key st name) = if bd x then Some (stage T h (t x) (s x)) else None) by (rewrite Ex; apply C1).
  destruct (during_plan b e base name expected schema D T h (fun _ => left) True (fun _ => bd x) (fun _ => bs y)
           (fun _ => t x) (fun _ => s x) (fun _ => t2 y)) as (r & E & K); auto.
  - intros _. fold st. rewrite Ey, C2. replace (s2 y) with 0%nat by lia. reflexivity.
  - intros N. destruct (N I).
  - exists r. split; auto. intros sl ->. destruct (K sl eq_refl) as ((K1 & K2 & K3 & K4 & _ & _) & K5). split; auto. split; auto. split; auto.
    assert (Bd := Dok). destruct Bd as (Bd & Ld).
    destruct (plan_len D T h P) as (LT & L8 & Lh).
    assert (Lt : len (stage T h (t x) (s x)) = Z.of_nat (t x)) by (unfold len; rewrite stage_length; auto).
    destruct (read_during_ok b e (fun _ => left) base name expected sl) as (c1 & c4 & E1 & E4 & L1 & L4 & Hv); auto.
    { intros c. fold st. rewrite F1. destruct (bd x); [|discriminate]. intros [= <-]. split; [apply (plan_bytes D); auto|].
      unfold isize_max in *. unfold len in *. lia. }
    fold st in E1, E4. rewrite F1 in E1, E4. destruct (bd x); [|discriminate]. injection E1 as <-. injection E4 as <-.
    destruct (stage_header D T h (t x) (s x)) as (SH1 & SH2); auto; try (unfold isize_max, len in *; lia).
    rewrite Hv in SH1, SH2. assert (Full : sl_len sl = len D -> sl_bytes sl = D).
    { intros X. rewrite K4, X. apply firstn_all2. unfold len. lia. }
    destruct (Nat.eq_dec (s x) 0) as [Z0|NZ].
    + destruct (SH2 (or_introl Z0)) as [(V & _)|V]; [|left; auto]. right. rewrite K4, V. reflexivity.
    + left. apply Full. specialize (X3 ltac:(lia)). unfold len in *. lia.
Qed.

Section Left.
Context {X : Type}.
Variables (m : M X) (w : world) (L : list effect) (o : outcome X) (w0 left : world).
Hypothesis Lg : logs m w L o w0.
Hypothesis Left : after_power_failure m w left.
Variables (b : build) (e : endian).
Let W (_ : nat) := left.

Lemma dread_lost base n expected i (P : nat -> slice -> Prop) : no_log base n L -> absent (FileStorage 0 base) n w ->
  gives (dread b e W base n expected) i P.
Proof.
  intros (N1 & _) (A1 & _). unfold dread, gives, read_during, W.
  set (k := res_key (FileStorage 0 base) n) in *.
  assert (PE : forall k w, fst (path_exists k (restart w)) = Ret (on_disk k w)) by reflexivity.
  rewrite PE, obind_ret. destruct (on_disk k _).
  2:{ eexists _, _. split; [reflexivity|]. split; [lia|discriminate]. }
  cbn [negb]. rewrite mmap_fresh. change (key_of (res_path (FileStorage 0 base) n)) with k.
  destruct (Left k) as (x & ->). rewrite (away_never m w L o w0 Lg k x N1), A1. eexists _, _. split; [reflexivity|]. split; [lia|discriminate].
Qed.

Lemma dread_left_file base n schema d expected i : file_log base n schema d L -> absent (FileStorage 0 base) n w -> data_ok d ->
  gives (dread b e W base n expected) i (fun j sl => slice_ok sl /\ sl_bytes sl = d).
Proof.
  intros (G1 & G2) (A1 & A2) Dok. unfold dread, gives, W.
  destruct (read_left b e base n expected schema d (resource_bytes d) [] left
    (fun x => w_files (world_at m w x) (file_key base n)) (fun x => w_files (world_at m w x) (file_key base (schema_name n)))) as (r & E & K).
  - left. auto.
  - auto.
  - exact (timeline_logs _ w L _ w0 _ _ _ Lg (growing_timeline _ _ _ _ G1 A1)).
  - exact (timeline_logs _ w L _ w0 _ _ _ Lg (growing_timeline _ _ _ _ G2 A2)).
  - apply Left.
  - apply Left.
  - rewrite E, obind_ret. exists r, (i + 6)%nat. split; auto. split; [lia|]. intros sl Hr.
    destruct (K sl Hr) as (_ & (K2 & _) & K3). auto.
Qed.

Lemma read_left_sealed base n schema D expected : sealed_log (file_key base n) (file_key base (schema_name n)) schema L ->
  absent (FileStorage 0 base) n w -> data_ok D -> w_files w0 (file_key base n) = Some (resource_bytes D) ->
  exists r, read_during b e W base n expected = Ret r /\
    forall sl, r = Ok sl -> (exists q, schema = expected ++ q) /\ all_or_nothing D sl.
Proof.
  intros SL (A1 & A2) Dok Fd. unfold W.
  assert (En := sealed_log_data _ _ schema L (w_files w) D SL (eq_trans (f_equal (fun g => g _) (eq_sym (proj1 Lg))) Fd)). destruct SL as (G1 & _).
  destruct (read_left b e base n expected schema D (zeros 8 ++ D ++ zeros 8) (le_bytes 8 (len D)) left
    (fun x => w_files (world_at m w x) (file_key base n)) (fun x => w_files (world_at m w x) (file_key base (schema_name n)))) as (r & E & K).
  - right. auto.
  - auto.
  - refine (timeline_logs _ w L _ w0 _ _ _ Lg (ended_timeline _ _ _ _ _ En A1 _)). rewrite le_bytes_length, app_length. simpl. lia.
  - exact (timeline_logs _ w L _ w0 _ _ _ Lg (growing_timeline _ _ _ _ G1 A2)).
  - apply Left.
  - apply Left.
  - exists r. split; auto. intros sl Hr. destruct (K sl Hr) as (K1 & K2 & _). auto.
Qed.
Lemma dread_left_sealed base n schema D expected i : sealed_log (file_key base n) (file_key base (schema_name n)) schema L ->
  absent (FileStorage 0 base) n w -> data_ok D -> w_files w0 (file_key base n) = Some (resource_bytes D) ->
  gives (dread b e W base n expected) i (fun j sl => all_or_nothing D sl).
Proof.
  intros SL Ab Dok Fd. destruct (read_left_sealed base n schema D expected SL Ab Dok Fd) as (r & E & K).
  unfold dread, gives. exists r, (i + 6)%nat. split; [|split; [lia|intros sl Hr; apply (K sl Hr)]].
  replace (read_during b e (fun n0 => W (i + n0)%nat) base n expected) with (read_during b e W base n expected) by reflexivity.
  rewrite E. reflexivity.
Qed.

Lemma left_part_bytes base n schema oo opt i v : byte_log base n schema oo L -> absent (FileStorage 0 base) n w ->
  byte_slot (FileStorage v base) n schema oo (set_faults [] w0) ->
  gives (dpart opt (dread b e W base n schema)) i (fun j y => left_bytes oo y /\ (opt = false -> y <> None)).
Proof.
  intros Lo Ab Sl. apply gives_part with (P := fun j sl => slice_ok sl /\ oo = Some (sl_bytes sl)).
  - destruct oo as [d|]; simpl in *; [|apply dread_lost; auto].
    eapply gives_conseq; [eapply (dread_left_file base n schema d); eauto; apply Sl|]. intros j sl (K & <-). auto.
  - intros j sl (K & ->). split; [split; auto|discriminate].
  - intros j ->. split; [exact I|discriminate].
Qed.
Lemma left_part_vec base id r oo v opt i st : vec_log id base r oo v L -> absent (FileStorage 0 base) (tr_name r) w ->
  vec_slot (FileStorage st base) r oo v (set_faults [] w0) -> (forall l, oo <> VOpen l) ->
  gives (dpart opt (dread b e W base (tr_name r) (tr_schema r))) i (fun j y => left_vec r oo y /\ (opt = false -> y <> None)).
Proof.
  intros Lo Ab Sl No. apply gives_part with (P := fun j sl => left_vec r oo (Some sl)).
  - destruct oo as [|d|l|l]; simpl in *.
    + apply dread_lost; auto.
    + eapply gives_conseq; [eapply (dread_left_file base _ _ d); eauto; apply Sl|]. intros j sl (K & <-). auto.
    + destruct (No l eq_refl).
    + destruct Sl as (D & (St & Dok) & Ar & Re).
      eapply gives_conseq; [eapply (dread_left_sealed base (tr_name r) (tr_schema r) D); eauto; apply St|].
      intros j sl K. exists D. auto.
  - intros j sl K. split; [auto|discriminate].
  - intros j ->. split; [exact I|discriminate].
Qed.
Lemma left_part_mul base id r oo v i st : mul_log id base r oo v L -> mr_index r = index_name (mr_name r) ->
  absent (FileStorage 0 base) (mr_name r) w -> absent (FileStorage 0 base) (index_name (mr_name r)) w ->
  wf_struct (index_struct (mr_size r) (mr_bits r)) -> wf_vdesc (mr_types r) ->
  mul_slot (FileStorage st base) r oo v (set_faults [] w0) -> (forall l, oo <> MOpen l) ->
  gives (dmulti b e W base r) i (fun j y => left_mul r oo y /\ (mr_opt r = false -> fst y <> None /\ snd y <> None)).
Proof.
  intros Lo En Ab Abi Wi Wt Sl No. unfold dmulti. rewrite En.
  destruct oo as [|l|l]; simpl in Lo, Sl.
  - destruct Lo as (N1 & N2).
    eapply gives_try with (P := fun _ y => y = None /\ mr_opt r = true).
    { eapply gives_part with (P := fun _ _ => False); [apply dread_lost; auto|contradiction|auto]. }
    cbn beta. intros n y _ (-> & Op).
    eapply gives_try with (P := fun _ y => y = None).
    { eapply gives_part with (P := fun _ _ => False); [apply dread_lost; auto|contradiction|auto]. }
    cbn beta. intros n2 y _ ->. apply gives_ret. split; [left; reflexivity|]. congruence.
  - destruct (No l eq_refl).
  - destruct Lo as (S1 & S2 & _). rewrite En in Sl. destruct Sl as (bs & Di & Fb & [Re _] & (Si & Iok) & (Sd & Dok)).
    assert (Fm := final_parts r l bs Di Fb Wi Wt Re).
    eapply gives_try with (P := fun _ y => match y with Some x => all_or_nothing Di x | None => mr_opt r = true end).
    { eapply gives_part; [eapply (dread_left_sealed base (index_name (mr_name r)) (index_schema (mr_schema r)) Di); eauto; apply Si|auto|auto]. }
    cbn beta. intros n y _ Hy.
    eapply gives_try with (P := fun _ y => match y with Some x => all_or_nothing (concat bs) x | None => mr_opt r = true end).
    { eapply gives_part; [eapply (dread_left_sealed base (mr_name r) (mr_schema r) (concat bs)); eauto; apply Sd|auto|auto]. }
    cbn beta. intros n2 z _ Hz. apply gives_ret. split.
    + right. exists l, Di, (concat bs). split; auto. split; auto. cbn [fst snd]. split; [destruct y; auto|destruct z; auto].
    + cbn [fst snd]. intros Op. split; intros ->; congruence.
Qed.

Lemma left_open a base A s id : wf_archive true a -> tsim a base A s L -> sim a (FileStorage id base) A s (set_faults [] w0) -> finished A ->
  (forall k, under base k -> w_files w k = None) ->
  exists r, fresh_open b e a base left = Ret r /\ forall x, r = Ok x -> left_plan a base A x /\ complete a x.
Proof.
  intros Wf T S F Em.
  assert (G : gives (open_during b e W a base) O (fun j x => left_plan a base A x /\ complete a x)).
  { refine (gives_open b e W w w0 L (fun _ _ _ => left_bytes) (fun _ _ => left_vec) (fun _ _ => left_mul) _ _ _ _ _ _ _ _ a base A s id Wf T S F Em O); auto.
    - intros. apply dread_lost; auto.
    - intros base' n schema j Lo Ab. eapply gives_conseq; [eapply dread_left_file; eauto|auto].
      split; [constructor|]. unfold isize_max, len. simpl. lia.
    - intros. eapply left_part_bytes; eauto.
    - intros. eapply left_part_vec; eauto.
    - intros. eapply left_part_mul; eauto. }
  destruct G as (r & n & E & _ & K). exists r. split; auto. rewrite <- open_during_still. fold W. rewrite E. reflexivity.
Qed.
End Left.

Lemma power_write b e id base name schema data w left : let st := FileStorage id base in
  w_faults w = [] -> fresh_name st name w -> unblocked st name w -> absent st name w -> data_ok data ->
  after_power_failure (write b e st name schema data) w left ->
  forall b' e' expected, exists r, fresh_read b' e' base name expected left = Ret r /\
    forall sl, r = Ok sl -> slice_ok sl /\ sl_bytes sl = data /\ exists q, schema = expected ++ q.
Proof.
  intros st Hf F (R1 & R2) (A1 & A2) Dok HL b' e' expected.
  assert (Wf : set_faults [] w = w) by (destruct w; simpl in *; subst; reflexivity).
  destruct (traced_write b e id base name schema data w (key_schema id base name)) as (L & o & w0 & Lg & Q).
  destruct (write_progresses b e st name schema data w) as (w1 & Ew); auto; try (destruct F; apply fresh_start; auto).
  assert (C := logs_clean _ _ _ _ _ Lg). rewrite Wf in C. fold st in C. rewrite Ew in C. injection C as <- _.
  destruct (Q eq_refl) as (G1 & G2 & _).
  destruct (read_left b' e' base name expected schema data (resource_bytes data) [] left
    (fun x => w_files (world_at (write b e st name schema data) w x) (res_key st name))
    (fun x => w_files (world_at (write b e st name schema data) w x) (res_key st (schema_name name)))) as (r & E & K).
  - left. auto.
  - auto.
  - exact (timeline_logs _ w L _ w0 _ _ _ Lg (growing_timeline _ _ _ _ G2 A1)).
  - exact (timeline_logs _ w L _ w0 _ _ _ Lg (growing_timeline _ _ _ _ G1 A2)).
  - apply HL.
  - apply HL.
  - exists r. rewrite <- read_during_still. split; auto. intros sl Hr. destruct (K sl Hr) as (K1 & (K2 & _) & K3). auto.
Qed.

Lemma power_ev b e lim s id base name schema ops w : let st := FileStorage id base in
  w_faults w = [] -> wf_struct s -> schema_ok st schema -> maps_ok w -> fresh_name st name w -> unblocked st name w -> absent st name w ->
  only_grows ops -> Forall (ev_op_ok st name s) ops -> grows ops * s_size s + 16 <= isize_max ->
  exists D, array_of s D (elements s (all_sets ops)) /\ records s D = elements s (all_sets ops) /\
  forall left, after_power_failure (ev_session b e lim s st name schema ops) w left ->
  forall b' e' expected, exists r, fresh_read b' e' base name expected left = Ret r /\
    forall sl, r = Ok sl -> (exists q, schema = expected ++ q) /\ all_or_nothing D sl.
Proof.
  intros st Hf Hwf Sok MO F Un Ab Og Ops HL.
  assert (Wf : set_faults [] w = w) by (destruct w; simpl in *; subst; reflexivity).
  destruct (traced_ev_session b e lim s id base name schema ops w Og (key_schema id base name)) as (L & o & w0 & Lg & Q).
  destruct (ev_progress b e lim st name schema s ops w Hwf Sok MO F Un Ops HL (only_grows_quiet ops st w Og Hf))
    as (v & w1 & flags & v' & w2 & sl & w3 & C & R & Fl & Cl).
  destruct (ev_closed_ok b e lim st name schema s ops w v w1 flags v' w2 sl w3 Hwf Sok MO F Ops HL C R Cl (or_introl Fl))
    as (Lf & Sl & Sm & Ar & Rc & Ll & El & MO3 & B1 & B2 & F1 & F2).
  assert (X := logs_clean _ _ _ _ _ Lg). rewrite Wf in X. fold st in X.
  assert (Es : ev_session b e lim s st name schema ops w = (Ret (Ok (flags, Ok sl)), w3)).
  { unfold ev_session, mtry, mbind. rewrite C. cbn beta iota. rewrite R. cbn beta iota. cbn [snd fst]. rewrite Cl. reflexivity. }
  rewrite Es in X. injection X as <- ->. specialize (Q _ eq_refl).
  rewrite (kept_all ops flags Lf Fl) in *. exists (sl_bytes sl). split; auto. split; auto.
  intros left HLe b' e' expected. rewrite <- read_during_still.
  refine (read_left_sealed _ w L _ w0 left Lg HLe b' e' base name schema (sl_bytes sl) expected Q Ab _ B1).
  assert (G := kept_grows ops flags Lf Fl). rewrite (kept_all ops flags Lf Fl) in G.
  split; [destruct Sl as (Sl1 & Sl2 & Sl3); apply bytes_ok_firstn; auto|]. rewrite len_sl_bytes by auto. nia.
Qed.

Lemma power_mv b e lim size bits ts id base name schema ops w : let st := FileStorage id base in
  w_faults w = [] -> wf_struct (index_struct size bits) -> wf_vdesc ts -> valid_name name -> mv_schema_ok st schema -> maps_ok w ->
  mv_fresh st name w -> mv_unblocked st name w -> absent st name w -> absent st (index_name name) w ->
  only_mgrows ops -> Forall (mv_op_ok st name ts) ops -> mv_fits size bits ts ops ->
  exists I D, (forall i d, slice_ok i -> slice_ok d -> sl_bytes i = I -> sl_bytes d = D ->
                 mav_shows ts size bits (mkMav i d) (buckets ts (mv_all ops))) /\
  forall left, after_power_failure (mv_session b e lim size bits ts st name schema ops) w left ->
  forall b' e' expected,
    (exists r, fresh_read b' e' base (index_name name) expected left = Ret r /\
       forall sl, r = Ok sl -> (exists q, index_schema schema = expected ++ q) /\ all_or_nothing I sl) /\
    (exists r, fresh_read b' e' base name expected left = Ret r /\
       forall sl, r = Ok sl -> (exists q, schema = expected ++ q) /\ all_or_nothing D sl).
Proof.
  intros st Hf Hwi Hwf Hn Sok MO F Un Ab Abi Og Ops Fit.
  destruct (mv_session_log b e lim size bits ts id base name schema ops w Hf Hwi Hwf Hn Sok MO F Un Og Ops Fit)
    as (iv & d & L & o & w0 & Sh & D2 & D1 & Lg & Q1 & Q2 & _ & F1 & F2).
  exists (sl_bytes iv), (sl_bytes d). split.
  { intros i' d' Si Sd Ei Ed. destruct Sh as ((S1 & S2) & S3 & S4). unfold mav_shows. simpl in *.
    assert (EO : offsets size bits (mkMav i' d') = offsets size bits (mkMav iv d)) by (unfold offsets; simpl; rewrite Ei; auto).
    assert (EL : sl_len d' = sl_len d) by (rewrite <- (len_sl_bytes d') by auto; rewrite <- (len_sl_bytes d) by auto; rewrite Ed; auto).
    rewrite EO, EL, Ed. split; [split; auto|]. auto. }
  intros left HL b' e' expected. rewrite <- !read_during_still. split.
  - exact (read_left_sealed _ w L _ w0 left Lg HL b' e' base (index_name name) (index_schema schema) (sl_bytes iv) expected Q2 Abi D2 F2).
  - exact (read_left_sealed _ w L _ w0 left Lg HL b' e' base name schema (sl_bytes d) expected Q1 Ab D1 F1).
Qed.

Lemma power_build b e lim a id base ops A w left : let st := FileStorage id base in
  wf_archive true a -> dirs_apart a -> maps_ok w -> unused_storage st w -> empty_place st w ->
  history true a no_plan ops A -> finished A ->
  after_power_failure (build_session b e lim a st ops) w left ->
  forall b' e', exists r, fresh_open b' e' a base left = Ret r /\ forall x, r = Ok x -> left_plan a base A x /\ complete a x /\ sufficient a A.
Proof.
  intros st Wf Da M Un Em H Fin HL b' e'.
  assert (E : set_faults [] w = w) by (destruct Em as (E & _); destruct w; simpl in *; subst; reflexivity).
  destruct (build_progress b e lim a st w ops A Wf Da M Un Em H) as (w1 & s2 & w2 & R1 & R2 & _).
  destruct (builder_new_ok _ b e a st w st w1 Wf eq_refl M Un R1) as (_ & S1 & _ & M1).
  destruct (brun_ok _ b e lim a ops st no_plan A (new_bstate st) w1 _ s2 w2 Wf eq_refl M1 S1 H R2) as (S2 & _ & _).
  { apply Forall_forall. intros x Hx. symmetry. eapply repeat_spec; eauto. }
  rewrite <- E in R1. destruct (traced_build b e lim a id base ops A w w1 s2 w2 Wf H R1 R2) as (L & o & w0 & Lg & -> & E2 & T).
  assert (S0 : sim a st A s2 w2) by exact S2. rewrite <- E2 in S0.
  destruct (left_open _ w L _ w0 left Lg HL b' e' a base A s2 id Wf T) as (r & R & K); auto.
  - intros k Uk. destruct Un as (_ & _ & Un). auto.
  - exists r. split; auto. intros x Hx. destruct (K x Hx) as (K1 & K2). split; auto. split; auto.
    eapply shown_sufficient; [| | |exact K1|exact K2].
    + intros base' n [sl|]; simpl; auto. intros (_ & X). discriminate.
    + intros base' q [sl|]; simpl; auto. intros [].
    + intros base' q y [X|(l & I & D & X & _)]; [auto|discriminate].
Qed.
