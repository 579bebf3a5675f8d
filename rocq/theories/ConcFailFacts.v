(** A process beside anything that spares its files. *)
From Verif Require Import Base BaseFacts Codec CodecSpec CodecFacts Storage PathFacts StorageSpec StorageFacts StorageMore Writers.
From Verif Require Import Conc ConcFacts ConcSpec ConcUse ConcFail ConcFailSpec.
Local Open Scope list_scope.
Local Open Scope Z_scope.

Lemma skipn_more {X} (l : list X) a b : skipn a (skipn b l) = skipn (b + a) l.
Proof. revert b. induction l as [|x l IH]; intros b; [rewrite !skipn_nil; auto|]. destruct b; simpl; auto. Qed.

Section Safe.
Context {A : Type} (F B : key -> Prop) (P : own -> outcome A -> Prop).
Definition gives_up (p : prog A) : Prop := exists o, p = Done o /\ forall g, P g o.

(** Programs that write only files of [F] that they have created, in directories
    of [B] that they have found or made ([kd]), and end at the first error. *)
Inductive safe : list key -> own -> prog A -> Prop :=
| safe_done kd g o : P g o -> safe kd g (Done o)
| safe_look kd g k f : F k -> safe kd g (f true) -> safe kd g (f false) -> safe kd g (Stat k f)
| safe_base kd g b f h : B b -> f false = MkDirs b h -> peq (h (Ok tt)) (f true) -> safe (b :: kd) g (f true) ->
    (forall x, gives_up (h (Er x))) -> safe kd g (Stat b f)
| safe_mkdirs kd g b h : B b -> safe (b :: kd) g (h (Ok tt)) -> (forall x, gives_up (h (Er x))) -> safe kd g (MkDirs b h)
| safe_create kd g k f : F k -> In (parent k) kd -> safe kd (kupd k (Some []) g) (f (Ok (SFile k 0))) ->
    (forall x, gives_up (f (Er x))) -> safe kd g (CreateFile k f)
| safe_seek kd g f : safe kd g (f (Ok tt)) -> (forall x, gives_up (f (Er x))) -> safe kd g (Seek f)
| safe_put kd g k p d c f : F k -> g k = Some c -> 0 <= p <= len c -> d <> [] ->
    safe kd (kupd k (Some (splice p d c)) g) (f (Ok tt, SFile k (p + len d))) ->
    (forall x s, gives_up (f (Er x, s))) -> safe kd g (PutAt k p d f).

Lemma gives_up_peq p q : gives_up p -> peq p q -> gives_up q.
Proof. intros (o & -> & H) Q. inversion Q; subst. exists o. auto. Qed.
Lemma safe_peq kd g p q : safe kd g p -> peq p q -> safe kd g q.
Proof.
  intros H. revert q. induction H as [kd g o H|kd g k f H H1 IH1 H2 IH2|kd g b f h H H0 H1 H2 IH H3|kd g b h H H1 IH H2|kd g k f H H0 H1 IH H2|kd g f H IH H1|kd g k p d c f H H0 H1 H2 H3 IH H4];
    intros q' Q; inversion Q as [|? ? f' Hf|? ? f' Hf|? ? f' Hf|? f' Hf|? ? ? ? f' Hf]; subst.
  - apply safe_done; auto.
  - apply safe_look; auto.
  - assert (X := Hf false). rewrite H0 in X. inversion X as [| |? ? h' Hh E1 E2| | |]; subst.
    apply safe_base with (h := h'); auto.
    + eapply peq_trans; [apply peq_sym, Hh|]. eapply peq_trans; [exact H1|]. auto.
    + intros x. eapply gives_up_peq; eauto.
  - apply safe_mkdirs; auto. intros x. eapply gives_up_peq; eauto.
  - apply safe_create; auto. intros x. eapply gives_up_peq; eauto.
  - apply safe_seek; auto. intros x. eapply gives_up_peq; eauto.
  - apply safe_put with (c := c); auto. intros x s. eapply gives_up_peq; eauto.
Qed.
Hypothesis PS : forall g h o, osame g h -> P g o -> P h o.
Lemma safe_same kd g h p : osame g h -> safe kd g p -> safe kd h p.
Proof.
  intros S O. revert h S. induction O; intros h' S.
  - apply safe_done. eauto.
  - apply safe_look; auto.
  - apply safe_base with (h := h); auto.
  - apply safe_mkdirs; auto.
  - apply safe_create; auto. apply IHO, kupd_same_own. auto.
  - apply safe_seek; auto.
  - apply safe_put with (c := c); auto; [rewrite <- S; auto|]. apply IHO, kupd_same_own. auto.
Qed.

(** * The disk of the process and the disk that it would have alone *)
Hypothesis KB : forall k b, F k -> B b -> is_prefix_of k b = false.
Definition spared (w w' : world) : Prop :=
  (forall k, F k -> w_files w' k = w_files w k /\ is_dir k w' = is_dir k w) /\
  (forall b, B b -> (is_dir b w = true -> is_dir b w' = true) /\
     forall n, w_files w (above b n) = None -> w_files w' (above b n) = None).
Definition good (kd : list key) (w : world) : Prop :=
  (forall k, F k -> is_dir k w = false) /\ (forall b n, B b -> w_files w (above b n) = None) /\
  (forall b, In b kd -> B b /\ is_dir b w = true).
Definition owned (g : own) (v : world) : Prop := forall k c, g k = Some c -> F k /\ w_files v k = Some c.
Inductive sim : own -> world -> prog A -> world -> prog A -> Prop :=
| sim_at kd g w v p : safe kd g p -> good kd w -> good kd v -> owned g v ->
    (forall k, F k -> w_files w k = w_files v k) -> sim g w p v p
| sim_mid kd g w v k q d f c j : safe kd g (PutAt k q d f) -> good kd w -> good kd v -> owned g v ->
    g k = Some c -> (j <= length d)%nat ->
    (forall x, F x -> w_files w x = kupd k (Some (splice q (firstn j d) c)) (w_files v) x) ->
    sim g w (PutAt k (q + Z.of_nat j) (skipn j d) f) v (PutAt k q d f).

Lemma above_F k b n : F k -> B b -> above b n <> k.
Proof. intros Hk Hb. exact (above_other F B (fun _ => true) KB b n k Hk Hb). Qed.
Lemma above_full b : above b (length (snd b)) = b.
Proof. unfold above. rewrite firstn_all. destruct b; auto. Qed.
Lemma good_path kd w b : good kd w -> B b -> file_on_path b w = false.
Proof.
  intros (_ & G & _) Hb. unfold file_on_path. destruct (existsb _ _) eqn:E; auto.
  apply existsb_exists in E. destruct E as (n & _ & E). specialize (G b n Hb). unfold above in G. rewrite G in E. discriminate.
Qed.
Lemma mkdirs_good kd u b fs : good kd u -> B b ->
  create_dir_all b (set_faults (FOk :: fs) u) = (Ret (Ok tt), set_faults fs (set_dirs (fun x => w_dirs u x || is_prefix_of x b) u)).
Proof.
  intros G Hb. unfold create_dir_all, syscall. cbn [next_fault w_faults set_faults].
  change (file_on_path b (set_faults fs (set_faults (FOk :: fs) u))) with (file_on_path b u). rewrite (good_path kd u b G Hb). reflexivity.
Qed.
Lemma good_base kd w b : good kd w -> B b -> on_disk b w = is_dir b w.
Proof.
  intros (_ & G & _) Hb. unfold on_disk. specialize (G b (length (snd b)) Hb). rewrite above_full in G. rewrite G. auto.
Qed.
Lemma good_look kd w k : good kd w -> F k -> on_disk k w = match w_files w k with Some _ => true | None => false end.
Proof.
  intros (G & _) Hk. unfold on_disk. destruct (w_files w k); auto. apply (G k Hk).
Qed.
Lemma good_spared kd w w' : spared w w' -> good kd w -> good kd w'.
Proof.
  intros (S1 & S2) (G1 & G2 & G3). split; [|split].
  - intros k Hk. destruct (S1 k Hk) as (_ & ->). auto.
  - intros b n Hb. apply (S2 b Hb). auto.
  - intros b Hb. destruct (G3 b Hb) as (X & Y). split; auto. apply (S2 b X). auto.
Qed.
Lemma sim_spared g w w' p v q : spared w w' -> sim g w p v q -> sim g w' p v q.
Proof.
  intros S H. destruct H.
  - apply sim_at with (kd := kd); auto; [eapply good_spared; eauto|].
    intros k Hk. rewrite (proj1 (proj1 S k Hk)). auto.
  - eapply sim_mid; eauto; [eapply good_spared; eauto|].
    intros x Hx. rewrite (proj1 (proj1 S x Hx)). auto.
Qed.

Lemma good_dirs kd w b : good kd w -> B b -> good (b :: kd) (set_dirs (fun x => w_dirs w x || is_prefix_of x b) w).
Proof.
  intros (G1 & G2 & G3) Hb. split; [|split].
  - intros k Hk. specialize (G1 k Hk). unfold is_dir in *. simpl. apply orb_false_iff in G1. destruct G1 as (-> & ->).
    rewrite (KB k b); auto.
  - exact G2.
  - intros x [<-|Hx].
    + split; auto. unfold is_dir. simpl. rewrite is_prefix_of_refl, orb_true_r. auto.
    + destruct (G3 x Hx) as (X & Y). split; auto. unfold is_dir in *. simpl. apply orb_true_iff in Y.
      destruct Y as [->| ->]; simpl; auto. apply orb_true_r.
Qed.
Lemma good_part kd w b n : good kd w -> B b ->
  good kd (set_dirs (fun x => w_dirs w x || is_prefix_of x (fst b, firstn n (snd b))) w).
Proof.
  intros (G1 & G2 & G3) Hb. split; [|split].
  - intros k Hk. specialize (G1 k Hk). unfold is_dir in *. simpl. apply orb_false_iff in G1. destruct G1 as (-> & ->).
    destruct (is_prefix_of k (fst b, firstn n (snd b))) eqn:E; auto.
    apply prefix_shorter in E. rewrite (KB k b) in E by auto. discriminate.
  - exact G2.
  - intros x Hx. destruct (G3 x Hx) as (X & Y). split; auto. unfold is_dir in *. simpl. apply orb_true_iff in Y.
    destruct Y as [->| ->]; simpl; auto. apply orb_true_r.
Qed.
Lemma good_more kd w b : good kd w -> B b -> is_dir b w = true -> good (b :: kd) w.
Proof. intros (G1 & G2 & G3) Hb D. split; auto. split; auto. intros x [<-|Hx]; auto. Qed.
Lemma good_file kd w k c : good kd w -> F k -> good kd (set_files (kupd k c (w_files w)) w).
Proof.
  intros (G1 & G2 & G3) Hk. split; [|split]; auto.
  intros b n Hb. simpl. rewrite kupd_other by (apply above_F; auto). auto.
Qed.
Lemma owned_set g v k c : owned g v -> F k -> owned (kupd k (Some c) g) (set_files (kupd k (Some c) (w_files v)) v).
Proof.
  intros O Hk x y Hx. simpl. unfold kupd in *. destruct (key_eqb x k) eqn:E.
  - apply key_eqb_eq in E. subst. auto.
  - apply O. auto.
Qed.

(** What is true at the end. *)
Definition outcome_as (v : world) (q : prog A) (o : outcome A) (w' : world) : Prop :=
  exists fs v', interp q (set_faults fs v) = (o, v') /\ (forall k, F k -> w_files w' k = w_files v' k) /\
    exists g, P g o /\ forall k c, g k = Some c -> F k /\ w_files w' k = Some c.
Hypothesis PC : forall g, P g Crash.

Lemma outcome_done v o fs q w1 : (forall g, P g o) ->
  (exists v', interp q (set_faults fs v) = (o, v') /\ forall k, F k -> w_files w1 k = w_files v' k) -> outcome_as v q o w1.
Proof.
  intros H (v' & E & W). exists fs, v'. split; auto. split; auto. exists none. split; auto. intros k c. discriminate.
Qed.
(** The process and the process alone do the same call. *)
Lemma outcome_pre v q v1 q1 : (forall fs, exists fs', interp q (set_faults fs' v) = interp q1 (set_faults fs v1)) ->
  forall o w', outcome_as v1 q1 o w' -> outcome_as v q o w'.
Proof. intros H o w' (fs & v' & E & R). destruct (H fs) as (fs' & E'). exists fs', v'. rewrite E'. auto. Qed.

Definition next (v : world) (q : prog A) (w1 : world) (p1 : prog A) : Prop :=
  (exists g1 v1 q1, sim g1 w1 p1 v1 q1 /\ forall o w', outcome_as v1 q1 o w' -> outcome_as v q o w') \/
  exists o, p1 = Done o /\ outcome_as v q o w1.

Lemma mid_next kd g w v k q d f c j w1 p1 : safe kd g (PutAt k q d f) -> good kd w -> good kd v -> owned g v ->
  g k = Some c -> (j <= length d)%nat ->
  (forall x, F x -> w_files w x = kupd k (Some (splice q (firstn j d) c)) (w_files v) x) ->
  fstep w (PutAt k (q + Z.of_nat j) (skipn j d) f) w1 p1 -> next v (PutAt k q d f) w1 p1.
Proof.
  intros Sf Gw Gv Ow Gk Lj Fe S.
  inversion Sf as [| | | | | |? ? ? ? ? c' ? Hk Hg Hq Hd S1 Gu]; subst. assert (c' = c) by congruence. subst c'.
  destruct (Ow k c Gk) as (_ & Vk).
  assert (Wk : file_content k w = splice q (firstn j d) c) by (unfold file_content; rewrite (Fe k Hk), kupd_same; auto).
  assert (Vc : True -> file_content k v = c) by (intros _; unfold file_content; rewrite Vk; auto).
  assert (Nn : exists x d', d = x :: d') by (destruct d; [congruence|eauto]).
  inversion S as [? ? ? ? X| | | | |? ? ? ? ? x|? ? X]; subst.
  - assert (Y : (j < length d)%nat \/ skipn j d = [] /\ j = length d).
    { destruct (Nat.eq_dec j (length d)) as [->|]; [right; rewrite skipn_all; auto|left; lia]. }
    inversion X as [| | | | |? ? ? ? ? i Hi|? ? ? ? E1 E2 E3 E4]; subst.
    + rewrite skipn_length in Hi. left. exists g, v, (PutAt k q d f). split; auto.
      replace (q + Z.of_nat j + Z.of_nat i) with (q + Z.of_nat (j + i)) by lia. rewrite skipn_more, (Nat.add_comm j i).
      apply sim_mid with (kd := kd) (c := c); auto; [apply good_file; auto|lia|].
      intros y Hy. simpl. unfold kupd at 1. rewrite Wk. destruct (key_eqb y k) eqn:Ey.
      * unfold kupd. rewrite Ey. f_equal.
        rewrite <- (splice_parts q (firstn (i + j) d) j c Hq) by (rewrite firstn_length; lia).
        rewrite firstn_firstn. replace (Nat.min j (i + j)) with j by lia.
        rewrite skipn_firstn_comm. replace (i + j - j)%nat with i by lia. reflexivity.
      * rewrite (Fe y Hy). unfold kupd. rewrite Ey. auto.
    + destruct Y as [Y|(_ & ->)]; [assert (L := skipn_length j d); match goal with E : [] = skipn _ _ |- _ => rewrite <- E in L end; simpl in L; lia|].
      left. exists (kupd k (Some (splice q d c)) g), (set_files (kupd k (Some (splice q d c)) (w_files v)) v), (f (Ok tt, SFile k (q + len d))).
      split.
      * apply sim_at with (kd := kd); auto; [apply good_file; auto|apply owned_set; auto|].
        intros y Hy. rewrite (Fe y Hy), firstn_all. reflexivity.
      * apply outcome_pre. intros fs. exists (FOk :: fs). cbn [interp]. unfold mbind at 1, write_all.
        destruct Nn as (x & d' & ->). cbn [next_fault w_faults set_faults]. unfold file_write.
        change (file_content k (set_faults fs (set_faults (FOk :: fs) v))) with (file_content k v). rewrite (Vc I). reflexivity.
  - right. destruct (Gu x (SFile k (q + Z.of_nat j))) as (o & Eo & Po). exists o. split; auto.
    destruct (Nat.eq_dec j 0) as [->|Nj].
    + apply (outcome_done v o [FErr x]); auto. exists (set_faults [] v). split.
      * cbn [interp]. unfold mbind at 1, write_all. destruct Nn as (y & d' & ->). cbn [next_fault w_faults set_faults].
        change (Z.of_nat 0) with 0 in Eo. rewrite Z.add_0_r in Eo. rewrite Eo. reflexivity.
      * intros y Hy. rewrite (Fe y Hy). cbn [firstn]. rewrite splice_nil by auto. simpl. unfold kupd.
        destruct (key_eqb y k) eqn:E; auto. apply key_eqb_eq in E. subst. auto.
    + apply (outcome_done v o [FShort j x]); auto.
      exists (set_faults [] (set_files (kupd k (Some (splice q (firstn j d) c)) (w_files v)) v)). split; [|exact Fe].
      cbn [interp]. unfold mbind at 1, write_all. destruct Nn as (y & d' & ->). cbn [next_fault w_faults set_faults]. 
      unfold file_write. change (file_content k (set_faults [] (set_faults [FShort j x] v))) with (file_content k v). rewrite (Vc I).
      replace (len (firstn j (y :: d'))) with (Z.of_nat j) by (unfold len; rewrite firstn_length; lia). rewrite Eo. reflexivity.
  - right. exists Crash. split; auto. apply (outcome_done v Crash [FCrash j]); auto.
    exists (set_faults [] (set_files (kupd k (Some (splice q (firstn j d) c)) (w_files v)) v)). split; [|exact Fe].
    cbn [interp]. unfold mbind at 1, write_all. destruct Nn as (y & d' & ->). cbn [next_fault w_faults set_faults].
    unfold file_write. change (file_content k (set_faults [] (set_faults [FCrash j] v))) with (file_content k v). rewrite (Vc I). reflexivity.
Qed.

Lemma step_next g w p v q w1 p1 : fstep w p w1 p1 -> sim g w p v q -> next v q w1 p1.
Proof.
  intros S M. destruct M as [kd g w v p Sf Gw Gv Ow Fe|kd g w v k q d f c j Sf Gw Gv Ow Gk Lj Fe].
  - (* between system calls *)
    inversion Sf as [? ? o Po|? ? k f Hk S1 S2|? ? b f h Hb Ef Pe S1 Gu|? ? b h Hb S1 Gu|? ? k f Hk Hp S1 Gu|? ? f S1 Gu|? ? k q d c f Hk Hg Hq Hd S1 Gu]; subst.
    + inversion S as [? ? ? ? X| | | | | |? ? X]; subst; [inversion X|]. destruct (X o eq_refl).
    + inversion S as [? ? ? ? X| | | | | |? ? X]; subst.
      * inversion X; subst. left. rewrite (good_look kd w1 k Gw Hk), (Fe k Hk), <- (good_look kd v k Gv Hk).
        exists g, v, (f (on_disk k v)). split.
        -- apply sim_at with (kd := kd); auto. destruct (on_disk k v); auto.
        -- apply outcome_pre. intros fs. exists (FOk :: fs). reflexivity.
      * left. exists g, v, (f false). split; [apply sim_at with (kd := kd); auto|].
        apply outcome_pre. intros fs. exists (FErr KOther :: fs). reflexivity.
      * right. exists Crash. split; auto. apply (outcome_done v Crash [FCrash 0]); auto. exists (set_faults [] v). split; auto.
    + assert (Sm : safe kd g (MkDirs b h)).
      { apply safe_mkdirs; auto. eapply safe_peq; [exact S1|]. apply peq_sym. auto. }
      assert (Nx : next v (Stat b f) w (f false)).
      { left. exists g, v, (MkDirs b h). rewrite Ef. split; [apply sim_at with (kd := kd); auto|].
        apply outcome_pre. intros fs. exists (FErr KOther :: fs). cbn. unfold mbind. cbn. rewrite Ef. reflexivity. }
      inversion S as [? ? ? ? X| | | | | |? ? X]; subst; auto.
      * inversion X; subst. rewrite (good_base kd w1 b Gw Hb). destruct (is_dir b w1) eqn:Dw; auto.
        left. destruct (is_dir b v) eqn:Dv.
        -- exists g, v, (f true). split; [apply sim_at with (kd := b :: kd); auto; apply good_more; auto|].
           apply outcome_pre. intros fs. exists (FOk :: fs). rewrite <- Dv, <- (good_base kd v b Gv Hb). reflexivity.
        -- exists g, (set_dirs (fun x => w_dirs v x || is_prefix_of x b) v), (f true). split.
           ++ apply sim_at with (kd := b :: kd); auto; [apply good_more; auto|apply good_dirs; auto].
           ++ apply outcome_pre. intros fs. exists (FErr KOther :: FOk :: fs). cbn [interp]. unfold mbind at 1. cbn. rewrite Ef.
              cbn [interp]. unfold mbind at 1. change (set_faults (FOk :: fs) (set_faults _ v)) with (set_faults (FOk :: fs) v).
              rewrite (mkdirs_good kd v b fs Gv Hb),  (interp_peq _ _ Pe). reflexivity.
      * right. exists Crash. split; auto. apply (outcome_done v Crash [FCrash 0]); auto. exists (set_faults [] v). split; auto.
    + inversion S as [? ? ? ? X| | | | | |? ? X]; subst.
      * inversion X as [|? ? ? r ? E|? ? ? m Em Ep| | | |]; subst.
        2: { left. exists g, v, (MkDirs b h). split; [|auto]. apply sim_at with (kd := kd); auto. apply good_part; auto. }
        assert (E' : create_dir_all b (set_faults [] w) = create_dir_all b (set_faults (FOk :: []) w)) by reflexivity.
        rewrite E', (mkdirs_good kd w b [] Gw Hb) in E.
        injection E as <- <-. left. exists g, (set_dirs (fun x => w_dirs v x || is_prefix_of x b) v), (h (Ok tt)). split.
        -- apply sim_at with (kd := b :: kd); auto; [apply (good_dirs kd w b); auto|apply good_dirs; auto].
        -- apply outcome_pre. intros fs. exists (FOk :: fs). cbn [interp]. unfold mbind at 1.
           rewrite (mkdirs_good kd v b fs Gv Hb). reflexivity.
      * right. destruct (Gu x) as (o & Eo & Po). exists o. split; auto. apply (outcome_done v o [FErr x]); auto.
        exists (set_faults [] v). split; auto. cbn [interp]. unfold mbind at 1. cbn. rewrite Eo. reflexivity.
      * right. exists Crash. split; auto. apply (outcome_done v Crash [FCrash 0]); auto. eexists. split; [reflexivity|].
        intros y Hy. match goal with |- context[if ?c then _ else _] => destruct c end; apply Fe; auto.
    + inversion S as [? ? ? ? X| | | | | |? ? X]; subst.
      * inversion X as [| | |? ? ? r ? E| | |]; subst.
        assert (Cr : forall fs u, good kd u -> file_create k (set_faults (FOk :: fs) u) =
                   (Ret (Ok (SFile k 0)), set_faults fs (set_files (kupd k (Some []) (w_files u)) u))).
        { intros fs u (G1 & _ & G3). unfold file_create, syscall. cbn [next_fault w_faults set_faults].
          change (is_dir k (set_faults fs (set_faults (FOk :: fs) u))) with (is_dir k u).
          rewrite (G1 k Hk). change (is_dir (parent k) (set_faults fs (set_faults (FOk :: fs) u))) with (is_dir (parent k) u).
          rewrite (proj2 (G3 _ Hp)). reflexivity. }
        assert (E' : file_create k (set_faults [] w) = file_create k (set_faults (FOk :: []) w)) by reflexivity.
        rewrite E', Cr in E by auto. injection E as <- <-.
        left. exists (kupd k (Some []) g), (set_files (kupd k (Some []) (w_files v)) v), (f (Ok (SFile k 0))). split.
        -- apply sim_at with (kd := kd); auto; [apply (good_file kd w k); auto|apply good_file; auto|apply owned_set; auto|].
           intros x Hx. simpl. unfold kupd. destruct (key_eqb x k); auto.
        -- apply outcome_pre. intros fs. exists (FOk :: fs). cbn [interp]. unfold mbind at 1. rewrite Cr by auto. reflexivity.
      * right. destruct (Gu x) as (o & Eo & Po). exists o. split; auto. apply (outcome_done v o [FErr x]); auto.
        exists (set_faults [] v). split; auto. cbn [interp]. unfold mbind at 1. cbn. rewrite Eo. reflexivity.
      * right. exists Crash. split; auto. apply (outcome_done v Crash [FCrash 0]); auto. exists (set_faults [] v). split; auto.
    + inversion S as [? ? ? ? X| | | | | |? ? X]; subst.
      * inversion X; subst. left. exists g, v, (f (Ok tt)). split; [apply sim_at with (kd := kd); auto|].
        apply outcome_pre. intros fs. exists (FOk :: fs). reflexivity.
      * right. destruct (Gu x) as (o & Eo & Po). exists o. split; auto. apply (outcome_done v o [FErr x]); auto.
        exists (set_faults [] v). split; auto. cbn [interp]. unfold mbind at 1. cbn. rewrite Eo. reflexivity.
      * right. exists Crash. split; auto. apply (outcome_done v Crash [FCrash 0]); auto. exists (set_faults [] v). split; auto.
    + apply (mid_next kd g w v k q d f c 0); auto; [lia| |].
      * intros x Hx. cbn [firstn]. rewrite splice_nil by auto. unfold kupd. destruct (key_eqb x k) eqn:E; auto.
        apply key_eqb_eq in E. subst x. rewrite (Fe k Hk). apply (Ow k c Hg).
      * cbn [skipn]. change (Z.of_nat 0) with 0. rewrite Z.add_0_r. exact S.
  - apply (mid_next kd g w v k q d f c j); auto.
Qed.

(** * Whole runs *)
Lemma done_stays (o : outcome A) w w' p : beside spared w (Done o) w' p -> p = Done o /\ forall k, F k -> w_files w' k = w_files w k.
Proof.
  intros R. remember (Done o) as q. induction R as [|? ? ? ? ? ? S R IH|? ? ? ? ? S R IH]; subst; auto.
  - inversion S as [? ? ? ? X| | | | | |? ? X]; subst; [inversion X|destruct (X o eq_refl)].
  - destruct (IH eq_refl) as (E & W). split; auto. intros k Hk. rewrite (W k Hk). apply S. auto.
Qed.
Lemma beside_outcome w p w' p' : beside spared w p w' p' -> forall g v q o, sim g w p v q -> p' = Done o -> outcome_as v q o w'.
Proof.
  intros R. induction R as [w p|w p w1 p1 w2 p2 S R IH|w p w1 w2 p2 S R IH]; intros g v q o M E.
  - subst p. inversion M as [? ? ? ? ? Sf Gw Gv Ow Fe|]; subst. inversion Sf; subst.
    exists [], (set_faults [] v). split; [reflexivity|]. split; [exact Fe|]. exists g. split; auto.
    intros k c Hg. destruct (Ow k c Hg) as (Hk & Hv). split; auto. rewrite Fe; auto.
  - destruct (step_next _ _ _ _ _ _ _ S M) as [(g1 & v1 & q1 & M1 & H)|(o1 & -> & H)].
    + apply H. eapply IH; eauto.
    + destruct (done_stays _ _ _ _ R) as (E' & W). rewrite E in E'. injection E' as <-.
      destruct H as (fs & v' & E1 & E2 & g2 & Pg & E3). exists fs, v'. split; auto. split.
      * intros k Hk. rewrite W; auto.
      * exists g2. split; auto. intros k c Hc. destruct (E3 k c Hc) as (Hk & X). split; auto. rewrite W; auto.
  - eapply IH; eauto. eapply sim_spared; eauto.
Qed.
End Safe.
