(** Different spellings of a directory ("/d", "/d/", "/d/.", "//d"): everything
    but the cache of memory maps depends on the components of a path only. *)
From Verif Require Import Base BaseFacts Codec Structs Views Storage PathFacts StorageSpec.
From Verif Require Import Writers MultiViews Archives ArchiveSpec.
Local Open Scope list_scope.
Local Open Scope Z_scope.

(** * Paths *)
Lemma key_join_relative base n : is_absolute n = false ->
  key_of (path_join base n) = (is_absolute base, snd (key_of base) ++ snd (key_of n)).
Proof.
  intros Hn. unfold path_join. rewrite Hn. unfold key_of. cbn [snd].
  destruct (split_slash_cons n) as (h & t & Sn).
  destruct (String.eqb_spec base "") as [->|Hb].
  - simpl. rewrite Hn. reflexivity.
  - destruct (ends_with_slash base) eqn:E.
    + apply ends_with_slash_split in E; auto. destruct E as (i & E & _).
      rewrite is_absolute_app, E, (split_slash_app base n i "" h t E Sn) by auto.
      rewrite !filter_app'. simpl. rewrite app_nil_r, Sn. reflexivity.
    + rewrite is_absolute_app by auto. destruct (split_slash_last base) as (i & l & E2).
      assert (S2 : split_slash (String "/"%char n) = ""%string :: h :: t) by (simpl; rewrite Sn; auto).
      change ("/" ++ n)%string with (String "/"%char n). rewrite (split_slash_app base (String "/"%char n) i l "" (h :: t) E2 S2), E2, !filter_app'.
      rewrite sapp_nil_r. change (l :: h :: t) with ([l] ++ h :: t). rewrite filter_app', app_assoc, Sn. reflexivity.
Qed.

Lemma path_join_inj base n m : is_absolute n = false -> is_absolute m = false -> path_join base n = path_join base m -> n = m.
Proof.
  intros Hn Hm. unfold path_join. rewrite Hn, Hm. destruct (ends_with_slash base); intros H; apply sapp_inj_l in H; auto.
  injection H as H. exact H.
Qed.

(** Doubled slashes and "." components do not matter. *)
Lemma split_mid a b : exists i l h t, split_slash a = i ++ [l] /\ split_slash b = h :: t.
Proof. destruct (split_slash_last a) as (i & l & Ha). destruct (split_slash_cons b) as (h & t & Hb). eauto 10. Qed.

Lemma key_slash a b : key_of (a ++ "/" ++ b) = (is_absolute (a ++ "/"), filter real_component (split_slash a) ++ filter real_component (split_slash b)).
Proof.
  destruct (split_mid a b) as (i & l & h & t & Ha & Hb). unfold key_of.
  assert (Hs : split_slash ("/" ++ b) = ""%string :: split_slash b) by reflexivity.
  rewrite (split_slash_app a ("/" ++ b) i l "" (split_slash b) Ha Hs), sapp_nil_r, Ha, !filter_app'.
  change (l :: split_slash b) with ([l] ++ split_slash b). rewrite filter_app', app_assoc. f_equal.
  destruct a; reflexivity.
Qed.

Lemma key_double a b : key_of (a ++ "//" ++ b) = key_of (a ++ "/" ++ b).
Proof.
  change ("//" ++ b)%string with ("/" ++ ("/" ++ b))%string. rewrite !key_slash. reflexivity.
Qed.
Lemma key_dot a b : key_of (a ++ "/./" ++ b) = key_of (a ++ "/" ++ b).
Proof.
  change ("/./" ++ b)%string with ("/" ++ ("./" ++ b))%string. rewrite !key_slash. reflexivity.
Qed.
Lemma key_trailing a : a <> ""%string -> key_of (a ++ "/") = key_of a /\ key_of (a ++ "/.") = key_of a.
Proof.
  intros Ha. split; [change (a ++ "/")%string with (a ++ "/" ++ "")%string|change (a ++ "/.")%string with (a ++ "/" ++ ".")%string];
    rewrite key_slash; unfold key_of; rewrite is_absolute_app by auto; cbn; rewrite app_nil_r; reflexivity.
Qed.
Lemma key_leading a : is_absolute a = false -> key_of ("./" ++ a) = key_of a.
Proof. intros Ha. unfold key_of. rewrite Ha. reflexivity. Qed.

(** * Calls that do not look at memory maps *)
Definition blind {A} (m : M A) : Prop := forall w x,
  m (set_maps x w) = (fst (m w), set_maps x (snd (m w))) /\ w_maps (snd (m w)) = w_maps w /\ w_next (snd (m w)) = w_next w.

Lemma blind_ret {A} (a : A) : blind (mret a).
Proof. intros w x. auto. Qed.
Lemma blind_lift {A} (a : outcome A) : blind (lift a).
Proof. intros w x. auto. Qed.
Lemma blind_bind {A B} (m : M A) (f : A -> M B) : blind m -> (forall a, blind (f a)) -> blind (mbind m f).
Proof.
  intros Hm Hf w x. destruct (Hm w x) as (E & M1 & N1). unfold mbind. rewrite E. destruct (m w) as [[a| | |] w1]; cbn [fst snd] in *; auto.
  destruct (Hf a w1 x) as (E2 & M2 & N2). rewrite E2. repeat split; congruence.
Qed.
Lemma blind_try {A B F G} (c : F -> G) (m : M (result A F)) (f : A -> M (result B G)) : blind m -> (forall a, blind (f a)) -> blind (mtry c m f).
Proof. intros Hm Hf. apply blind_bind; auto. intros [a|k]; auto using @blind_ret. Qed.
Lemma blind_stry {B} m (f : stream -> M (result B io_kind)) : blind m -> (forall s, blind (f s)) -> blind (stry m f).
Proof. intros Hm Hf. apply blind_bind; auto. intros [[u|k] s]; auto using @blind_ret. Qed.

Lemma blind_fault w x : next_fault (set_maps x w) = (fst (next_fault w), set_maps x (snd (next_fault w))) /\
  w_maps (snd (next_fault w)) = w_maps w /\ w_next (snd (next_fault w)) = w_next w.
Proof. unfold next_fault. cbn. destruct (w_faults w); auto. Qed.

Lemma blind_syscall {A} (m : M (result A io_kind)) : blind m -> blind (syscall m).
Proof.
  intros Hm w x. destruct (blind_fault w x) as (E & M1 & N1). unfold syscall. rewrite E.
  destruct (next_fault w) as [f w1]. cbn [fst snd] in *. destruct f; auto.
  destruct (Hm w1 x) as (E2 & M2 & N2). rewrite E2. repeat split; congruence.
Qed.

Lemma blind_exists k : blind (path_exists k).
Proof. apply blind_bind; [apply blind_syscall; intros w x; auto|]. intros [a|a]; apply blind_ret. Qed.
Lemma blind_dirs k : blind (create_dir_all k).
Proof.
  intros w x. destruct (blind_fault w x) as (E & M1 & N1). unfold create_dir_all. rewrite E.
  destruct (next_fault w) as [f w1]. cbn [fst snd] in *. change (file_on_path k (set_maps x w1)) with (file_on_path k w1).
  destruct f, (file_on_path k w1); auto.
Qed.
Lemma blind_create k : blind (file_create k).
Proof.
  apply blind_syscall. intros w x. change (is_dir k (set_maps x w)) with (is_dir k w). change (is_dir (parent k) (set_maps x w)) with (is_dir (parent k) w).
  destruct (is_dir k w); auto. destruct (is_dir (parent k) w); auto.
Qed.
Lemma blind_write_all s d : blind (write_all s d).
Proof.
  destruct s as [id k|k p]; intros w x; cbn.
  - destruct (w_streams w id k) as [[c p]|]; auto.
  - destruct d as [|y d]; auto. destruct (blind_fault w x) as (E & M1 & N1). rewrite E.
    destruct (next_fault w) as [f w1]. cbn [fst snd] in *. destruct f; auto.
Qed.
Lemma blind_write_size b e v s : blind (write_size b e v s).
Proof. apply blind_bind; [apply blind_lift|]. intros buf. apply blind_write_all. Qed.
Lemma blind_write_to b e d s : blind (write_to_stream b e d s).
Proof. apply blind_stry; [apply blind_write_size|]. intros s1. apply blind_stry; [apply blind_write_all|]. intros s2. apply blind_stry; [apply blind_write_all|]. intros. apply blind_ret. Qed.
Lemma blind_write_schema d s : blind (write_schema d s).
Proof. apply blind_stry; [apply blind_write_all|]. intros. apply blind_ret. Qed.

(** * Two file storages with two spellings *)
Definition pair_of (t : nat * string * string) := (fst (fst t), snd (fst t), snd t).
Definition agree (w w' : world) (t : nat * string * string) : Prop :=
  let '(id, p, p') := t in
  (id < w_next w)%nat /\ key_of p = key_of p' /\
  forall n, is_absolute n = false -> w_maps w id (path_join p n) = w_maps w' id (path_join p' n).
Definition rel (L : list (nat * string * string)) (w w' : world) : Prop :=
  w' = set_maps (w_maps w') w /\ NoDup (map (fun t => fst (fst t)) L) /\ Forall (agree w w') L.
Definition alike {A} L (m m' : M A) : Prop := forall w w', rel L w w' ->
  fst (m w) = fst (m' w') /\ rel L (snd (m w)) (snd (m' w')).

Lemma alike_blind {A} L (m : M A) : blind m -> alike L m m.
Proof.
  intros B w w' (E & N & F). destruct (B w (w_maps w')) as (E1 & M1 & N1). rewrite <- E in E1.
  destruct (B w' (w_maps w')) as (_ & M2 & N2). rewrite E1 in *. cbn [fst snd] in *. split; auto.
  split; [reflexivity|]. split; auto. eapply Forall_impl; [|exact F]. intros [[id p] p'] (H1 & H2 & H3).
  split; [congruence|]. split; [exact H2|]. intros n Hn. rewrite M1. cbn [w_maps set_maps]. apply H3, Hn.
Qed.

Lemma alike_ret {A} L (a : A) : alike L (mret a) (mret a).
Proof. apply alike_blind, blind_ret. Qed.
Lemma alike_lift {A} L (a : outcome A) : alike L (lift a) (lift a).
Proof. apply alike_blind, blind_lift. Qed.
Lemma alike_bind {A B} L (m m' : M A) (f f' : A -> M B) : alike L m m' -> (forall a, alike L (f a) (f' a)) -> alike L (mbind m f) (mbind m' f').
Proof.
  intros Hm Hf w w' R. destruct (Hm w w' R) as (E & R1). unfold mbind. destruct (m w) as [o w1], (m' w') as [o' w1']. cbn [fst snd] in *.
  subst o'. destruct o as [a| | |]; cbn [fst snd]; auto. apply Hf, R1.
Qed.
Lemma alike_try {A B F G} L (c : F -> G) (m m' : M (result A F)) (f f' : A -> M (result B G)) :
  alike L m m' -> (forall a, alike L (f a) (f' a)) -> alike L (mtry c m f) (mtry c m' f').
Proof. intros Hm Hf. apply alike_bind; auto. intros [a|k]; auto using @alike_ret. Qed.

Section Pair.
Variables (L : list (nat * string * string)) (id : nat) (p p' : string).
Hypothesis (I : In (id, p, p') L).
Notation st := (FileStorage id p).
Notation st' := (FileStorage id p').

Lemma alike_agree w w' : rel L w w' -> agree w w' (id, p, p').
Proof. intros (_ & _ & F). rewrite Forall_forall in F. apply F, I. Qed.

Lemma pair_key n w w' : is_absolute n = false -> rel L w w' -> key_of (path_join p n) = key_of (path_join p' n).
Proof.
  intros Hn R. destruct (alike_agree _ _ R) as (_ & K & _). rewrite !key_join_relative by auto. unfold key_of in *. injection K as K1 K2.
  rewrite K1. cbn [snd]. rewrite K2. reflexivity.
Qed.

Lemma alike_exists n : is_absolute n = false -> alike L (exists_ st n) (exists_ st' n).
Proof.
  intros Hn w w' R. assert (K := pair_key n w w' Hn R). cbn [exists_]. unfold res_key, res_path. cbn [st_base].
  rewrite <- K. apply alike_blind; [apply blind_exists|exact R].
Qed.

Lemma mapped_maps k l w x : mapped k l (set_maps x w) = mapped k l w.
Proof. reflexivity. Qed.

Lemma alike_mmap n : is_absolute n = false -> alike L (mmap_read id (path_join p n)) (mmap_read id (path_join p' n)).
Proof.
  intros Hn w w' R. assert (K := pair_key n w w' Hn R). destruct (alike_agree _ _ R) as (_ & _ & Mp). specialize (Mp n Hn).
  unfold mmap_read. rewrite <- K, <- Mp. destruct (w_maps w id (path_join p n)) as [l|].
  - destruct R as (E & N & F). cbn [fst snd]. split; [rewrite E; reflexivity|]. split; auto.
  - unfold syscall. destruct R as (E & N & F).
    assert (Ef : next_fault w' = (fst (next_fault w), set_maps (w_maps w') (snd (next_fault w)))) by (rewrite E at 1; apply blind_fault).
    destruct (blind_fault w (w_maps w)) as (_ & M1 & N1).
    rewrite Ef. destruct (next_fault w) as [f w1]. cbn [fst snd] in *.
    assert (R1 : rel L w1 (set_maps (w_maps w') w1)).
    { split; [reflexivity|]. split; auto. eapply Forall_impl; [|exact F]. intros [[j q] q'] (H1 & H2 & H3). split; [congruence|]. split; auto.
      intros m Hm. rewrite M1. apply H3, Hm. }
    destruct f; cbn [fst snd]; auto.
    cbn [w_files set_maps]. destruct (w_files w1 (key_of (path_join p n))) as [c|]; cbn [fst snd]; auto.
    destruct (len c =? 0); cbn [fst snd]; auto. split; [reflexivity|].
    split; [reflexivity|]. split; [exact N|]. destruct R1 as (_ & _ & F1). rewrite Forall_forall in *. intros [[j q] q'] Ij.
    destruct (F1 _ Ij) as (H1 & H2 & H3). split; [exact H1|]. split; [exact H2|]. intros m Hm. cbn [w_maps set_maps].
    unfold nupd. destruct (Nat.eqb_spec j id) as [->|Hj]; [|apply H3, Hm].
    assert (q = p /\ q' = p') as (-> & ->).
    { clear - N I Ij. induction L as [|t l IH]; [destruct I|]. cbn [map] in N. inversion N as [|? ? Hn Nd]; subst.
      destruct I as [->|I'], Ij as [E|Ij']; auto.
      - injection E as -> ->. auto.
      - exfalso. apply Hn. apply (in_map (fun t => fst (fst t))) in Ij'. exact Ij'.
      - exfalso. subst t. apply Hn. apply (in_map (fun t => fst (fst t))) in I'. exact I'. }
    unfold supd. destruct (String.eqb_spec (path_join p m) (path_join p n)) as [Em|Em].
    + apply path_join_inj in Em; auto. subst m. rewrite String.eqb_refl. reflexivity.
    + destruct (String.eqb_spec (path_join p' m) (path_join p' n)) as [Em'|Em'].
      * apply path_join_inj in Em'; auto. congruence.
      * apply H3, Hm.
Qed.

Lemma alike_read_resource n : is_absolute n = false -> alike L (read_resource st n) (read_resource st' n).
Proof.
  intros Hn. cbn [read_resource]. apply alike_bind.
  - intros w w' R. assert (K := pair_key n w w' Hn R). unfold res_key, res_path. cbn [st_base]. rewrite <- K. apply alike_blind; [apply blind_exists|exact R].
  - intros [|]; [|apply alike_ret]. apply alike_mmap, Hn.
Qed.

Lemma schema_relative n : is_absolute n = false -> is_absolute (schema_name n) = false.
Proof. destruct n; auto. Qed.

Lemma alike_read b e n sch : is_absolute n = false -> alike L (read b e st n sch) (read b e st' n sch).
Proof.
  intros Hn. unfold read. apply alike_try; [apply alike_read_resource, Hn|]. intros d.
  apply alike_try; [apply alike_read_resource, schema_relative, Hn|]. intros s. apply alike_lift.
Qed.

Lemma alike_create n : is_absolute n = false -> alike L (create_output_stream st n) (create_output_stream st' n).
Proof.
  intros Hn w w' R. assert (K := pair_key n w w' Hn R). destruct (alike_agree _ _ R) as (_ & Kb & _).
  cbn [create_output_stream]. unfold res_key, res_path. cbn [st_base]. rewrite <- K, <- Kb. revert w w' R K Kb.
  assert (B : alike L (let! x := path_exists (key_of p) in let? _ := (if x then mret (Ok tt) else create_dir_all (key_of p)) in file_create (key_of (path_join p n)))
    (let! x := path_exists (key_of p) in let? _ := (if x then mret (Ok tt) else create_dir_all (key_of p)) in file_create (key_of (path_join p n)))).
  { apply alike_blind, blind_bind; [apply blind_exists|]. intros x. apply blind_try; [destruct x; [apply blind_ret|apply blind_dirs]|]. intros u. apply blind_create. }
  intros w w' R _ _. exact (B w w' R).
Qed.

Lemma alike_write b e n sch d : is_absolute n = false -> alike L (write b e st n sch d) (write b e st' n sch d).
Proof.
  intros Hn. unfold write. apply alike_try; [apply alike_create, Hn|]. intros s. apply alike_try; [apply alike_blind, blind_write_to|]. intros u.
  apply alike_try; [apply alike_create, schema_relative, Hn|]. intros s2. apply alike_blind, blind_write_schema.
Qed.

Lemma alike_create_archive b e n sch : is_absolute n = false -> alike L (create_archive b e st n sch) (create_archive b e st' n sch).
Proof.
  intros Hn. unfold create_archive. assert (Hs : is_absolute (signature_name n) = false) by (destruct n; auto).
  apply alike_bind; [apply alike_exists, Hs|]. intros [|]; [apply alike_ret|]. apply alike_try; [apply alike_write, Hs|]. intros u. apply alike_ret.
Qed.
End Pair.

(** * Archives *)
(** No name in an archive definition starts with a slash. *)
Fixpoint relative_names (a : adesc) : Prop :=
  let 'mkArchive name _ structs vectors multis raws subs := a in
  is_absolute name = false /\
  Forall (fun r => is_absolute (tr_name r) = false) structs /\ Forall (fun r => is_absolute (tr_name r) = false) vectors /\
  Forall (fun r => is_absolute (mr_name r) = false /\ is_absolute (mr_index r) = false) multis /\
  Forall (fun r => is_absolute (rr_name r) = false) raws /\
  (fix go (l : list (string * adesc * bool)) : Prop :=
     match l with
     | [] => True
     | (n, a', _) :: l => (is_absolute n = false /\ relative_names a') /\ go l
     end) subs.

Lemma alike_check {A} L opt (m m' : M (result A rs_error)) : alike L m m' -> alike L (check_part opt m) (check_part opt m').
Proof. intros H. apply alike_bind; auto. intros [x|x]; apply alike_ret. Qed.

Lemma alike_each {A B} L (f f' : A -> M (result B rs_error)) l : Forall (fun x => alike L (f x) (f' x)) l -> alike L (each f l) (each f' l).
Proof.
  induction 1 as [|x l Hx _ IH]; cbn [each]; [apply alike_ret|]. apply alike_try; auto. intros y. apply alike_try; auto. intros ys. apply alike_ret.
Qed.

(** A new storage: related by one more pair. *)
Lemma rel_new L q q' w w' : rel L w w' -> key_of q = key_of q' ->
  rel ((w_next w, q, q') :: L) (snd (file_new q w)) (snd (file_new q' w')).
Proof.
  intros (E & N & F) K. assert (En : w_next w' = w_next w) by (rewrite E; reflexivity). cbn [file_new snd]. rewrite En. split.
  { clear F N K. destruct w, w'. unfold set_maps in E. cbn in *. injection E; intros; subst. reflexivity. }
  rewrite Forall_forall in F. split.
  - cbn [map fst]. constructor; auto. intros H. apply in_map_iff in H as ([[j r] r'] & Ej & Hj). cbn in Ej. subst j.
    destruct (F _ Hj) as (H1 & _). lia.
  - constructor.
    + split; [cbn; lia|]. split; [exact K|]. intros n Hn. cbn. rewrite !nupd_same. reflexivity.
    + apply Forall_forall. intros [[j r] r'] Hj. destruct (F _ Hj) as (H1 & H2 & H3). split; [cbn; lia|]. split; [exact H2|].
      intros n Hn. cbn. rewrite !nupd_other by lia. apply H3, Hn.
Qed.

Lemma rel_drop t L w w' : rel (t :: L) w w' -> rel L w w'.
Proof. intros (E & N & F). cbn [map] in N. inversion N; subst. inversion F; subst. split; auto. Qed.

Lemma alike_open b e : forall a L id p p', In (id, p, p') L -> relative_names a ->
  alike L (open_archive b e a (FileStorage id p)) (open_archive b e a (FileStorage id p')).
Proof.
  fix IH 1. intros [name schema structs vectors multis raws subs] L id p p' I.
  cbn [relative_names open_archive]. intros (Hn & Hs & Hv & Hm & Hr & Hsub).
  apply alike_try; [apply alike_read; auto; destruct name; auto|]. intros _.
  assert (T : forall l, Forall (fun r => is_absolute (tr_name r) = false) l ->
    alike L (each (open_typed b e (FileStorage id p)) l) (each (open_typed b e (FileStorage id p')) l)).
  { intros l Hl. apply alike_each. eapply Forall_impl; [|exact Hl]. intros r H. apply alike_check. apply alike_read; auto. }
  apply alike_try; [apply T, Hs|]. intros ss. apply alike_try; [apply T, Hv|]. intros vs.
  apply alike_try.
  { apply alike_each. eapply Forall_impl; [|exact Hm]. intros r (H1 & H2). unfold open_multi.
    apply alike_try; [apply alike_check, alike_read; auto|]. intros i. apply alike_try; [apply alike_check, alike_read; auto|]. intros d. apply alike_ret. }
  intros ms. apply alike_try.
  { apply alike_each. eapply Forall_impl; [|exact Hr]. intros r H. apply alike_check, alike_read; auto. }
  intros rs. apply alike_try; [|intros us; apply alike_ret].
  induction subs as [|[[n a'] opt] subs IHs]; [apply alike_ret|]. destruct Hsub as ((Hn' & Ha') & Hsub).
  apply alike_try; [|intros y; apply alike_try; [apply IHs, Hsub|intros ys; apply alike_ret]].
  apply alike_check. intros w w' R.
  assert (K := pair_key L id p p' I n w w' Hn' R).
  assert (R1 := rel_new L (path_join p n) (path_join p' n) w w' R K).
  assert (En : w_next w' = w_next w) by (destruct R as (E & _); rewrite E; reflexivity).
  unfold mbind. cbn [subdir]. unfold file_new in *. cbv zeta in *. cbn [snd] in R1. rewrite En in *.
  assert (IHa := IH a' ((w_next w, path_join p n, path_join p' n) :: L) (w_next w) (path_join p n) (path_join p' n) (or_introl eq_refl) Ha').
  destruct (IHa _ _ R1) as (Eo & R2). split; [exact Eo|]. apply rel_drop in R2. exact R2.
Qed.

Lemma rel_self w : rel [] w w.
Proof. split; [destruct w; reflexivity|]. split; constructor. Qed.

Lemma fresh_open_spelling b e a q q' w : key_of q = key_of q' -> relative_names a -> fresh_open b e a q w = fresh_open b e a q' w.
Proof.
  intros K Ha. unfold fresh_open, mbind. assert (R := rel_new [] q q' _ _ (rel_self (restart w)) K). unfold file_new in *. cbv zeta in *. cbn [snd] in *.
  apply (alike_open b e a [(w_next (restart w), q, q')] _ q q' (or_introl eq_refl) Ha _ _ R).
Qed.
Lemma fresh_read_spelling b e q q' n sch w : key_of q = key_of q' -> is_absolute n = false -> fresh_read b e q n sch w = fresh_read b e q' n sch w.
Proof.
  intros K Hn. unfold fresh_read, mbind. assert (R := rel_new [] q q' _ _ (rel_self (restart w)) K). unfold file_new in *. cbv zeta in *. cbn [snd] in *.
  apply (alike_read [(w_next (restart w), q, q')] _ q q' (or_introl eq_refl) b e n sch Hn _ _ R).
Qed.

(** Writing does not use the maps at all. *)
Lemma write_spelling b e id id' q q' n sch d w : key_of q = key_of q' -> is_absolute n = false ->
  write b e (FileStorage id q) n sch d w = write b e (FileStorage id' q') n sch d w.
Proof.
  intros K Hn. assert (Kn : forall m, is_absolute m = false -> key_of (path_join q m) = key_of (path_join q' m)).
  { intros m Hm. rewrite !key_join_relative by auto. unfold key_of in *. injection K as K1 K2. rewrite K1. cbn [snd]. rewrite K2. reflexivity. }
  unfold write. cbn [create_output_stream]. unfold res_key, res_path. cbn [st_base].
  rewrite <- (Kn n Hn), <- (Kn _ (schema_relative n Hn)), <- K. reflexivity.
Qed.
Lemma create_archive_spelling b e id id' q q' n sch w : key_of q = key_of q' -> is_absolute n = false ->
  create_archive b e (FileStorage id q) n sch w = create_archive b e (FileStorage id' q') n sch w.
Proof.
  intros K Hn. assert (Hs : is_absolute (signature_name n) = false) by (destruct n; auto).
  unfold create_archive. cbn [exists_]. unfold res_key, res_path. cbn [st_base].
  assert (Kn : key_of (path_join q (signature_name n)) = key_of (path_join q' (signature_name n))).
  { rewrite !key_join_relative by auto. unfold key_of in *. injection K as K1 K2. rewrite K1. cbn [snd]. rewrite K2. reflexivity. }
  rewrite <- Kn. unfold mbind at 1. unfold mbind at 1. destruct (path_exists _ w) as [[x| | |] w1]; auto. destruct x; auto.
  unfold mtry, mbind. rewrite (write_spelling b e id id' q q' (signature_name n) sch [] w1 K Hs). reflexivity.
Qed.

(** * Memory storages *)
Lemma mem_read_spelling b e id q q' n sch w : key_of q = key_of q' -> is_absolute n = false ->
  read b e (MemStorage id q) n sch w = read b e (MemStorage id q') n sch w.
Proof.
  intros K Hn. assert (Kn : forall m, is_absolute m = false -> key_of (path_join q m) = key_of (path_join q' m)).
  { intros m Hm. rewrite !key_join_relative by auto. unfold key_of in *. injection K as K1 K2. rewrite K1. cbn [snd]. rewrite K2. reflexivity. }
  unfold read. cbn [read_resource]. unfold res_key, res_path. cbn [st_base].
  rewrite <- (Kn n Hn), <- (Kn _ (schema_relative n Hn)). reflexivity.
Qed.
Lemma mem_write_spelling b e id q q' n sch d w : key_of q = key_of q' -> is_absolute n = false ->
  write b e (MemStorage id q) n sch d w = write b e (MemStorage id q') n sch d w.
Proof.
  intros K Hn. assert (Kn : forall m, is_absolute m = false -> key_of (path_join q m) = key_of (path_join q' m)).
  { intros m Hm. rewrite !key_join_relative by auto. unfold key_of in *. injection K as K1 K2. rewrite K1. cbn [snd]. rewrite K2. reflexivity. }
  unfold write. cbn [create_output_stream]. unfold res_key, res_path. cbn [st_base].
  rewrite <- (Kn n Hn), <- (Kn _ (schema_relative n Hn)). reflexivity.
Qed.
