(** Lemmas about paths and trees. *)
From Verif Require Import Base BaseFacts Storage PathFacts SpellFacts Paths PathSpec.
Local Open Scope list_scope.
Local Open Scope Z_scope.

Lemma real_dots s : real_component s = true <-> s <> ""%string /\ s <> "."%string.
Proof.
  unfold real_component. rewrite andb_true_iff, !negb_true_iff, !String.eqb_neq. reflexivity.
Qed.

(** * Segments of joined paths *)
Lemma split_join base n : is_absolute n = false -> base <> ""%string ->
  exists i, split_slash (path_join base n) = i ++ split_slash n /\
    (split_slash base = i \/ split_slash base = i ++ [""%string]) /\ i <> [].
Proof.
  intros Hn Hb. unfold path_join. rewrite Hn. destruct (split_mid base n) as (i & l & h & t & Eb & En).
  destruct (ends_with_slash base) eqn:Es.
  - apply ends_with_slash_split in Es; auto. destruct Es as (i' & E' & Ni). exists i'.
    rewrite (split_slash_app base n i' ""%string h t E' En), En. auto.
  - assert (Sn : split_slash ("/" ++ n) = ""%string :: split_slash n) by reflexivity.
    exists (split_slash base). rewrite (split_slash_app base ("/" ++ n) i l ""%string (split_slash n) Eb Sn).
    rewrite sapp_nil_r, Eb, <- app_assoc. split; [reflexivity|]. split; [auto|]. intros E. destruct i; discriminate.
Qed.

Lemma no_parent_join base n : is_absolute n = false -> no_parent base -> no_parent n -> no_parent (path_join base n).
Proof.
  intros Hn Hb Hp. destruct (String.string_dec base "") as [->|Nb]; [unfold path_join; rewrite Hn; exact Hp|].
  destruct (split_join base n Hn Nb) as (i & E & D & _). unfold no_parent in *. rewrite E. intros I. apply in_app_or in I.
  destruct I as [I|I]; [|exact (Hp I)]. apply Hb. destruct D as [->| ->]; [exact I|apply in_or_app; auto].
Qed.
Lemma ends_join base n : is_absolute n = false -> ends_with_name n -> ends_with_name (path_join base n).
Proof.
  intros Hn (i & l & E & R). destruct (String.string_dec base "") as [->|Nb]; [unfold path_join; rewrite Hn; exists i, l; auto|].
  destruct (split_join base n Hn Nb) as (j & Ej & _). exists (j ++ i), l. rewrite Ej, E, app_assoc. auto.
Qed.
Lemma absolute_join base n : is_absolute n = false -> is_absolute (path_join base n) = is_absolute base.
Proof. intros Hn. exact (f_equal fst (key_join_relative base n Hn)). Qed.

(** * Walking *)
Definition reals (segs : list string) : list string := filter real_component segs.
Lemma names_reals s : names_of s = reals (split_slash s).
Proof. reflexivity. Qed.

Fixpoint descend (t : tree) (at_ comps : list string) : result (list string) io_kind :=
  match comps with
  | [] => Ok at_
  | c :: r => match t at_ with
              | None => Er KNotFound
              | Some (NFile _) => Er KOther
              | Some NDir => descend t (at_ ++ [c]) r
              end
  end.

Lemma real_not_nil segs i l : segs = i ++ [l] -> real_component l = true -> reals segs <> [].
Proof. intros -> R E. unfold reals in E. rewrite filter_app in E. cbn in E. rewrite R in E. destruct (filter _ i); discriminate. Qed.

(** A path that ends with a name: only the names count. *)
Lemma walk_names t segs : ~ In ".."%string segs -> (exists i l, segs = i ++ [l] /\ real_component l = true) ->
  forall at_, walk t at_ segs = descend t at_ (reals segs).
Proof.
  induction segs as [|s r IH]; intros Np (i & l & E & R) at_; [destruct i; discriminate|].
  assert (Nr : ~ In ".."%string r) by (intros I; apply Np; right; exact I).
  assert (Ns : s <> ".."%string) by (intros ->; apply Np; left; reflexivity). apply String.eqb_neq in Ns.
  cbn [walk reals filter]. fold (reals r). destruct i as [|x i]; cbn in E; injection E as -> Er.
  - subst r. rewrite R. cbn [descend negb]. rewrite Ns. reflexivity.
  - assert (G : exists i l, r = i ++ [l] /\ real_component l = true) by eauto.
    destruct (real_component x) eqn:Rx; cbn [negb].
    + cbn [descend]. rewrite Ns. destruct (t at_) as [[]|]; auto.
    + assert (Nn := real_not_nil r i l Er R). specialize (IH Nr G at_).
      destruct (reals r) as [|c cs] eqn:Ec; [congruence|]. cbn [descend] in *.
      destruct (t at_) as [[c0|]|]; auto.
Qed.

Lemma walk_loc t segs : ~ In ".."%string segs -> forall at_ l, walk t at_ segs = Ok l -> l = at_ ++ reals segs.
Proof.
  induction segs as [|s r IH]; intros Np at_ l E; cbn [walk reals filter] in *; [injection E as <-; rewrite app_nil_r; reflexivity|].
  fold (reals r). assert (Nr : ~ In ".."%string r) by (intros I; apply Np; right; exact I).
  assert (Ns : s <> ".."%string) by (intros ->; apply Np; left; reflexivity). apply String.eqb_neq in Ns. rewrite Ns in E.
  destruct (t at_) as [[]|]; try discriminate E. destruct (real_component s); cbn [negb] in E; apply IH in E; auto.
  rewrite E, <- app_assoc. reflexivity.
Qed.
Lemma walk_app t i j : forall at_, walk t at_ (i ++ j) = match walk t at_ i with Ok l => walk t l j | Er k => Er k end.
Proof.
  induction i as [|s r IH]; intros at_; [reflexivity|]. cbn [app walk]. destruct (t at_) as [[]|]; auto.
  destruct (negb (real_component s)); auto. destruct (String.eqb s ".."); auto.
Qed.

(** * Trees *)
Lemma above t l m : tree_ok t -> t (l ++ m) <> None -> m <> [] -> t l = Some NDir.
Proof.
  intros T. induction m as [|x m IH] using rev_ind; intros N Nm; [congruence|]. rewrite app_assoc in N. apply (tree_above t T) in N.
  destruct m as [|y m]; [rewrite app_nil_r in N; exact N|]. apply IH; congruence.
Qed.
Lemma above_n t l m n : tree_ok t -> t (l ++ m) = Some NDir -> t (l ++ firstn n m) = Some NDir.
Proof.
  intros T E. destruct (skipn n m) as [|x r] eqn:S.
  - rewrite <- (firstn_skipn n m), S, app_nil_r in E. exact E.
  - apply (above t (l ++ firstn n m) (skipn n m) T); [rewrite <- app_assoc, firstn_skipn; congruence|congruence].
Qed.
Lemma walk_dir t segs : tree_ok t -> ~ In ".."%string segs -> forall at_, t (at_ ++ reals segs) = Some NDir -> walk t at_ segs = Ok (at_ ++ reals segs).
Proof.
  intros T. induction segs as [|s r IH]; intros Np at_ D; cbn [walk reals filter] in *; [rewrite app_nil_r; reflexivity|].
  fold (reals r) in *. assert (Nr : ~ In ".."%string r) by (intros I; apply Np; right; exact I).
  assert (Ns : s <> ".."%string) by (intros ->; apply Np; left; reflexivity). apply String.eqb_neq in Ns. rewrite Ns.
  destruct (real_component s); cbn [negb].
  - rewrite (above t at_ (s :: reals r) T) by congruence. rewrite IH; [rewrite <- app_assoc; reflexivity|exact Nr|].
    rewrite <- app_assoc. exact D.
  - replace (t at_) with (Some NDir); [apply IH; assumption|]. symmetry.
    assert (A := above_n t at_ (reals r) 0 T D). cbn in A. rewrite app_nil_r in A. exact A.
Qed.

Definition is_nfile (x : option node) : Prop := exists c, x = Some (NFile c).
Lemma descend_ok t comps x : tree_ok t -> forall at_, t (at_ ++ comps) = Some NDir -> descend t at_ (comps ++ [x]) = Ok (at_ ++ comps ++ [x]).
Proof.
  intros T. induction comps as [|c r IH]; intros at_ D; cbn [app descend] in *.
  - rewrite app_nil_r in D. rewrite D. reflexivity.
  - rewrite (above t at_ (c :: r) T) by congruence. rewrite IH; [rewrite <- app_assoc; reflexivity|]. rewrite <- app_assoc. exact D.
Qed.
Lemma descend_file t comps x : tree_ok t -> forall n at_, is_nfile (t (at_ ++ firstn n comps)) -> descend t at_ (comps ++ [x]) = Er KOther.
Proof.
  intros T. induction comps as [|c r IH]; intros n at_ (d & F).
  - rewrite firstn_nil, app_nil_r in F. cbn. rewrite F. reflexivity.
  - destruct n as [|n]; cbn [firstn] in F.
    + rewrite app_nil_r in F. cbn. rewrite F. reflexivity.
    + cbn [app descend]. rewrite (above t at_ (c :: firstn n r) T) by congruence. apply (IH n). exists d. rewrite <- app_assoc. exact F.
Qed.
Lemma descend_missing t comps x : forall at_, (forall n, ~ is_nfile (t (at_ ++ firstn n comps))) -> t (at_ ++ comps) = None ->
  descend t at_ (comps ++ [x]) = Er KNotFound.
Proof.
  induction comps as [|c r IH]; intros at_ F E; cbn [app descend].
  - rewrite app_nil_r in E. rewrite E. reflexivity.
  - destruct (t at_) as [[d|]|] eqn:Et; [|  |reflexivity].
    + exfalso. apply (F 0%nat). exists d. cbn. rewrite app_nil_r. exact Et.
    + apply IH; [|rewrite <- app_assoc; exact E]. intros n G. apply (F (S n)). cbn [firstn]. rewrite <- app_assoc in G. exact G.
Qed.

Lemma tset_same l x t : tset l x t l = Some x.
Proof. unfold tset. assert (E : comps_eqb l l = true) by (apply comps_eqb_eq; reflexivity). rewrite E. reflexivity. Qed.
Lemma tset_other l x t l' : l' <> l -> tset l x t l' = t l'.
Proof. intros N. unfold tset. destruct (comps_eqb l' l) eqn:E; [apply comps_eqb_eq in E; congruence|reflexivity]. Qed.
Lemma snoc_self {A} (l : list A) x : l ++ [x] <> l.
Proof. intros E. apply (f_equal (@List.length A)) in E. rewrite app_length in E. cbn in E. lia. Qed.
Lemma tset_ok t l s x : tree_ok t -> t l = Some NDir -> (x = NDir \/ dir_at t (l ++ [s]) = false) -> tree_ok (tset (l ++ [s]) x t).
Proof.
  intros T D X. split.
  - rewrite tset_other; [exact (tree_root t T)|]. intros E. destruct l; discriminate E.
  - intros l' s' N. destruct (list_eq_dec String.string_dec (l' ++ [s']) (l ++ [s])) as [E|E].
    + apply app_inj_tail in E. destruct E as [-> ->]. rewrite tset_other; [exact D|]. intros E. symmetry in E. exact (snoc_self _ _ E).
    + rewrite tset_other in N by exact E. apply (tree_above t T) in N.
      destruct (list_eq_dec String.string_dec l' (l ++ [s])) as [->|E2]; [|rewrite tset_other; assumption].
      rewrite tset_same. destruct X as [->|X]; [reflexivity|]. unfold dir_at in X. rewrite N in X. discriminate X.
Qed.

(** * The same on keys *)
Lemma on_path a c w : file_on_path (a, c) w = true <-> exists n d, w_files w (a, firstn n c) = Some d.
Proof.
  unfold file_on_path. cbn [fst snd]. rewrite existsb_exists. split.
  - intros (n & _ & H). destruct (w_files w (a, firstn n c)) as [d|] eqn:E; [eauto|discriminate].
  - intros (n & d & H). exists (Nat.min n (List.length c)). split; [apply in_seq; lia|].
    destruct (Nat.le_ge_cases n (List.length c)) as [L|L].
    + rewrite Nat.min_l by lia. rewrite H. reflexivity.
    + rewrite Nat.min_r, firstn_all by lia. rewrite firstn_all2 in H by lia. rewrite H. reflexivity.
Qed.
Section Shown.
Context (a : bool) (at_ : list string) (t : tree) (w : world).
Hypothesis S : shows a at_ t w.
Lemma shown_file l d : w_files w (a, l) = Some d <-> t (at_ ++ l) = Some (NFile d).
Proof.
  destruct (S l) as (F & _). rewrite F. destruct (t (at_ ++ l)) as [[c|]|]; split; intros E; try discriminate E; injection E as <-; reflexivity.
Qed.
Lemma shown_path c : file_on_path (a, c) w = true <-> exists n, is_nfile (t (at_ ++ firstn n c)).
Proof.
  rewrite on_path. split.
  - intros (n & d & E). apply shown_file in E. exists n, d. exact E.
  - intros (n & d & E). exists n, d. apply shown_file. exact E.
Qed.
Lemma shown_on_disk l : on_disk (a, l) w = match t (at_ ++ l) with Some _ => true | None => false end.
Proof.
  destruct (S l) as (F & D). unfold on_disk. unfold is_dir, dir_at in D. cbn [snd] in *. rewrite F.
  destruct (t (at_ ++ l)) as [[c|]|]; auto.
Qed.
End Shown.

(** * Calls on paths that end with a name *)
Section Named.
Context (cwd : list string) (a : bool) (t : tree) (w : world) (s : string).
Let at_ := if a then [] else cwd.
Hypotheses (T : tree_ok t) (S : shows a at_ t w) (A : is_absolute s = a) (Np : no_parent s) (En : ends_with_name s).
Lemma named_split : exists c x, names_of s = c ++ [x].
Proof.
  destruct En as (i & l & E & R). exists (reals i), l. rewrite names_reals, E. unfold reals. rewrite filter_app. cbn. rewrite R. reflexivity.
Qed.
Lemma named_resolve : resolve cwd t (path_of s) = descend t at_ (names_of s).
Proof.
  unfold resolve. assert (E : empty_path (path_of s) = false).
  { unfold empty_path, path_of. cbn. destruct En as (i & l & -> & R). rewrite forallb_app. cbn.
    apply real_dots in R. destruct R as (R & _). destruct l as [|ch l]; [congruence|]. cbn. destruct (is_absolute s), (forallb _ i); reflexivity. }
  rewrite E. unfold start, path_of. cbn [p_abs p_segs]. rewrite A. apply walk_names; [exact Np|exact En].
Qed.
Lemma named_key : key_of s = (a, names_of s).
Proof. unfold names_of, key_of. cbn. rewrite A. reflexivity. Qed.

Lemma named_ok c x : names_of s = c ++ [x] -> t (at_ ++ names_of s) <> None \/ t (at_ ++ c) = Some NDir ->
  resolve cwd t (path_of s) = Ok (at_ ++ names_of s).
Proof.
  intros E D. rewrite named_resolve, E. apply descend_ok; [exact T|]. destruct D as [D|D]; [|exact D].
  rewrite E, app_assoc in D. exact (tree_above t T _ _ D).
Qed.
Lemma named_er c x : names_of s = c ++ [x] -> t (at_ ++ c) <> Some NDir ->
  resolve cwd t (path_of s) = Er (if file_on_path (a, c) w then KOther else KNotFound).
Proof.
  intros E D. rewrite named_resolve, E. destruct (file_on_path (a, c) w) eqn:F.
  - apply (shown_path a at_ t w S) in F. destruct F as (n & F). exact (descend_file t c x T n at_ F).
  - assert (G : forall n, ~ is_nfile (t (at_ ++ firstn n c))).
    { intros n G. assert (X : file_on_path (a, c) w = true) by (apply (shown_path a at_ t w S); eauto). congruence. }
    apply descend_missing; [exact G|]. destruct (t (at_ ++ c)) as [[d|]|] eqn:Et; [|congruence|reflexivity].
    exfalso. apply (G (List.length c)). rewrite firstn_all. exists d. exact Et.
Qed.

Lemma named_exists : sys_exists cwd t (path_of s) = on_disk (key_of s) w.
Proof.
  rewrite named_key, (shown_on_disk a at_ t w S). destruct named_split as (c & x & E). unfold sys_exists.
  destruct (t (at_ ++ names_of s)) eqn:Et.
  - rewrite (named_ok c x E) by (left; congruence). rewrite Et. reflexivity.
  - destruct (t (at_ ++ c)) as [[d|]|] eqn:Ec;
      [rewrite (named_er c x E) by congruence; reflexivity| |rewrite (named_er c x E) by congruence; reflexivity].
    rewrite (named_ok c x E) by auto. rewrite Et. reflexivity.
Qed.

Lemma named_create : w_faults w = [] ->
  match sys_create cwd t (path_of s) with
  | Ok t' => exists w', file_create (key_of s) w = (Ret (Ok (SFile (key_of s) 0)), w') /\ tree_ok t' /\ shows a at_ t' w' /\
      w_maps w' = w_maps w
  | Er k => file_create (key_of s) w = (Ret (Er k), w)
  end.
Proof.
  intros Hf. unfold sys_create, file_create, syscall, next_fault. rewrite Hf, named_key. destruct named_split as (c & x & E).
  assert (P : parent (a, names_of s) = (a, c)) by (unfold parent; cbn [fst snd]; rewrite E, removelast_snoc; reflexivity).
  rewrite P, (proj2 (S (names_of s))), (proj2 (S c)).
  destruct (dir_at t (at_ ++ names_of s)) eqn:D.
  - rewrite (named_ok c x E); [rewrite D; reflexivity|]. left. unfold dir_at in D. destruct (t (at_ ++ names_of s)); congruence.
  - destruct (dir_at t (at_ ++ c)) eqn:Dc.
    + assert (Ec : t (at_ ++ c) = Some NDir) by (unfold dir_at in Dc; destruct (t (at_ ++ c)) as [[]|]; congruence).
      rewrite (named_ok c x E) by auto. rewrite D.
      exists (set_files (kupd (a, names_of s) (Some []) (w_files w)) w). split; [reflexivity|].
      split; [|split; [|reflexivity]].
      * rewrite E, app_assoc in D. rewrite E, app_assoc. apply tset_ok; [exact T|exact Ec|right; exact D].
      * intros l. destruct (list_eq_dec String.string_dec l (names_of s)) as [->|N].
        -- cbn [w_files set_files]. rewrite kupd_same. unfold dir_at. rewrite tset_same. split; [reflexivity|].
           change (is_dir (a, names_of s) w = false). rewrite (proj2 (S _)). exact D.
        -- cbn [w_files set_files]. rewrite kupd_other by congruence. unfold dir_at. rewrite tset_other by (intros X; apply app_inv_head in X; congruence).
           exact (S l).
    + rewrite (named_er c x E); [reflexivity|]. unfold dir_at in Dc. destruct (t (at_ ++ c)) as [[]|]; congruence.
Qed.

Lemma named_map id : w_maps w id s = None -> w_faults w = [] -> on_disk (key_of s) w = true ->
  exists w', mmap_read id s w = (Ret (match sys_map cwd t (path_of s) with Ok c => Ok (whole c) | Er k => Er k end), w').
Proof.
  intros Hm Hf O. revert O. unfold mmap_read. rewrite Hm. unfold syscall, next_fault. rewrite Hf. rewrite named_key.
  destruct named_split as (c & x & E). rewrite (shown_on_disk a at_ t w S), (proj1 (S (names_of s))), (proj2 (S (names_of s))).
  unfold sys_map, dir_at. destruct (t (at_ ++ names_of s)) as [[d|]|] eqn:Et; intros O; [| |discriminate O].
  - rewrite (named_ok c x E) by (left; congruence). rewrite Et. destruct (len d =? 0); [eauto|].
    eexists. unfold mapped, file_content. cbn [w_files set_maps]. rewrite (proj1 (S (names_of s))), Et.
    rewrite Z.leb_refl. cbn [omap obind]. unfold whole, len. rewrite Nat2Z.id, firstn_all. reflexivity.
  - rewrite (named_ok c x E) by (left; congruence). rewrite Et. eauto.
Qed.
End Named.

(** * Making directories *)
Lemma drop_spec segs : exists n, segs = drop_slashes segs ++ repeat ""%string n.
Proof.
  induction segs as [|s r (n & IH)]; [exists 0%nat; reflexivity|]. cbn [drop_slashes]. destruct (drop_slashes r) as [|y d] eqn:E.
  - destruct (String.eqb_spec s "") as [->|N]; cbn in IH.
    + exists (S n). cbn. f_equal. exact IH.
    + exists n. cbn. f_equal. exact IH.
  - exists n. cbn [app] in *. f_equal. exact IH.
Qed.
Lemma reals_app i j : reals (i ++ j) = reals i ++ reals j.
Proof. apply filter_app. Qed.
Lemma reals_repeat n : reals (repeat ""%string n) = [].
Proof. induction n; auto. Qed.
Lemma reals_drop segs : reals (drop_slashes segs) = reals segs.
Proof. destruct (drop_spec segs) as (n & E). rewrite E at 2. rewrite reals_app, reals_repeat, app_nil_r. reflexivity. Qed.
Lemma reals_rev l : reals (rev l) = rev (reals l).
Proof.
  induction l as [|x l IH]; [reflexivity|]. cbn [rev]. rewrite reals_app, IH. unfold reals at 2 3. cbn [filter].
  destruct (real_component x); [reflexivity|apply app_nil_r].
Qed.
Lemma in_drop x segs : In x (drop_slashes segs) -> In x segs.
Proof. destruct (drop_spec segs) as (n & E). intros I. rewrite E. apply in_or_app. auto. Qed.
Lemma drop_named i y : real_component y = true -> drop_slashes (i ++ [y]) = i ++ [y].
Proof.
  intros R. apply real_dots in R. destruct R as (R & _). induction i as [|s i IH]; cbn [app drop_slashes].
  - destruct (String.eqb_spec y ""); [congruence|reflexivity].
  - rewrite IH. destruct (i ++ [y]) eqn:E; [destruct i; discriminate|reflexivity].
Qed.
Lemma trim_skip abs n l : l <> [] -> trim abs (repeat ""%string n ++ l) = trim abs l.
Proof.
  intros N. induction n as [|n IH]; [reflexivity|]. cbn [repeat app trim]. change (real_component "") with false. cbn iota.
  rewrite IH. destruct (repeat ""%string n ++ l) eqn:E; [|reflexivity]. apply app_eq_nil in E. tauto.
Qed.
Lemma trim_spec abs l : reals l <> [] -> exists y r s, trim abs l = y :: r /\ real_component y = true /\ l = s ++ y :: r /\ reals s = [].
Proof.
  induction l as [|x l IH]; intros N; [destruct N; reflexivity|]. cbn [trim]. unfold reals in N. cbn [filter] in N.
  destruct (real_component x) eqn:R; [exists x, l, []; auto|]. destruct (IH N) as (y & r & s & E & Ry & El & Es).
  exists y, r, (x :: s). destruct l as [|z l]; [destruct N; reflexivity|]. split; [exact E|]. split; [exact Ry|]. split; [cbn; f_equal; exact El|].
  unfold reals. cbn [filter]. rewrite R. exact Es.
Qed.
Lemma trim_in abs l x : In x (trim abs l) -> In x l.
Proof.
  induction l as [|s l IH]; [auto|]. cbn [trim]. destruct (real_component s); [auto|]. destruct l as [|z l].
  - destruct (_ && _); [auto|intros []].
  - intros I. right. auto.
Qed.
Lemma trim_reals abs l : reals (trim abs l) = reals l.
Proof.
  induction l as [|s l IH]; [reflexivity|]. cbn [trim]. destruct (real_component s) eqn:R; [reflexivity|].
  assert (X : reals (s :: l) = reals l) by (unfold reals; cbn [filter]; rewrite R; reflexivity). rewrite X.
  destruct l as [|z l]; [|exact IH]. destruct (negb abs && (s =? ".")%string); [exact X|reflexivity].
Qed.
Lemma parent_in p q x : parent_path p = Some q -> In x (p_segs q) -> In x (p_segs p).
Proof.
  unfold parent_path. destruct (trim (p_abs p) (rev (p_segs p))) as [|y r] eqn:E; [discriminate|]. injection 1 as <-. cbn [p_segs].
  rewrite <- in_rev. intros I. apply trim_in in I. rewrite in_rev. apply (trim_in (p_abs p)). rewrite E. right. exact I.
Qed.
Lemma parent_reals p q : parent_path p = Some q -> p_abs q = p_abs p /\ exists n, reals (p_segs q) = firstn n (reals (p_segs p)).
Proof.
  unfold parent_path. destruct (trim (p_abs p) (rev (p_segs p))) as [|y r] eqn:E; [discriminate|]. injection 1 as <-. cbn [p_segs p_abs].
  split; [reflexivity|]. rewrite reals_rev, trim_reals. apply (f_equal reals) in E. rewrite trim_reals, reals_rev in E.
  apply (f_equal (@rev string)) in E. rewrite rev_involutive in E. rewrite E. unfold reals at 2. cbn [filter]. fold (reals r).
  destruct (real_component y).
  - cbn [rev]. exists (List.length (rev (reals r))). rewrite firstn_app, Nat.sub_diag, firstn_all, app_nil_r. reflexivity.
  - exists (List.length (rev (reals r))). symmetry. apply firstn_all.
Qed.
Lemma parent_named p i x : drop_slashes (p_segs p) = i ++ [x] -> real_component x = true -> reals i <> [] ->
  exists j y, parent_path p = Some (mkPath (p_abs p) (j ++ [y])) /\ real_component y = true /\ reals (j ++ [y]) = reals i.
Proof.
  intros E R N. destruct (drop_spec (p_segs p)) as (n & En). rewrite E in En. unfold parent_path. rewrite En, !rev_app_distr. cbn [rev app].
  assert (X : rev (repeat ""%string n) = repeat ""%string n).
  { clear. induction n as [|n IH]; [reflexivity|]. cbn [repeat rev]. rewrite IH. clear. induction n as [|n IH]; [reflexivity|]. cbn. f_equal. exact IH. }
  rewrite X, trim_skip by discriminate. cbn [trim]. rewrite R.
  destruct (trim_spec (p_abs p) (rev i)) as (y & r & s & Et & Ry & Ei & Es).
  { rewrite reals_rev. intros Y. apply N. apply (f_equal (@rev string)) in Y. rewrite rev_involutive in Y. exact Y. }
  exists (rev r), y. rewrite Et. split; [reflexivity|]. split; [exact Ry|].
  apply (f_equal (@rev string)) in Ei. rewrite rev_involutive, rev_app_distr in Ei. cbn [rev] in Ei. rewrite Ei, (reals_app (rev r ++ [y])), (reals_rev s), Es.
  cbn [rev]. rewrite app_nil_r. reflexivity.
Qed.

Section Make.
Context (cwd : list string).
Lemma named_not_empty p x : In x (p_segs p) -> real_component x = true -> empty_path p = false.
Proof.
  intros I R. unfold empty_path. destruct (p_abs p); [reflexivity|]. cbn [negb andb]. destruct (forallb (String.eqb "") (p_segs p)) eqn:F; [|reflexivity].
  rewrite forallb_forall in F. apply F in I. apply String.eqb_eq in I. subst x. discriminate R.
Qed.
Lemma not_dir_there t p : ~ In ".."%string (p_segs p) -> dir_at t (start cwd p ++ reals (p_segs p)) = false -> sys_is_dir cwd t p = false.
Proof.
  intros Np D. unfold sys_is_dir, resolve. destruct (empty_path p); [reflexivity|]. destruct (walk t (start cwd p) (p_segs p)) as [l|k] eqn:E; [|reflexivity].
  apply walk_loc in E; [|exact Np]. subst l. exact D.
Qed.

Lemma mkdirs_named fuel : forall t p i x, tree_ok t -> t (start cwd p) = Some NDir -> ~ In ".."%string (p_segs p) ->
  drop_slashes (p_segs p) = i ++ [x] -> real_component x = true -> t (start cwd p ++ reals (p_segs p)) = None ->
  (List.length (reals (p_segs p)) <= fuel)%nat ->
  ((exists n, is_nfile (t (start cwd p ++ firstn n (reals i)))) /\ mkdirs cwd fuel t p = (Er KOther, t)) \/
  ((forall n, ~ is_nfile (t (start cwd p ++ firstn n (reals i)))) /\ exists t', mkdirs cwd fuel t p = (Ok tt, t') /\ tree_ok t' /\
    t' (start cwd p ++ reals (p_segs p)) = Some NDir /\
    forall l, t' l = t l \/ (t l = None /\ t' l = Some NDir /\ exists n, l = start cwd p ++ firstn n (reals (p_segs p)))).
Proof.
  induction fuel as [|fuel IH]; intros t p i x T D Np Es R M L.
  { exfalso. rewrite <- reals_drop, Es, reals_app, app_length in L. unfold reals at 2 in L. cbn [filter] in L. rewrite R in L. cbn in L. lia. }
  assert (Er : reals (p_segs p) = reals i ++ [x]).
  { rewrite <- reals_drop, Es, reals_app. unfold reals at 2. cbn [filter]. rewrite R. reflexivity. }
  assert (Ne : empty_path p = false).
  { apply (named_not_empty p x); [|exact R]. apply in_drop. rewrite Es. apply in_or_app. right. left. reflexivity. }
  assert (W : forall t0, walk t0 (start cwd p) (drop_slashes (p_segs p)) = descend t0 (start cwd p) (reals i ++ [x])).
  { intros t0. rewrite walk_names; [rewrite reals_drop, Er; reflexivity| |rewrite Es; eauto]. intros I. apply in_drop in I. exact (Np I). }
  assert (MK : forall t0, tree_ok t0 -> t0 (start cwd p ++ reals i) = Some NDir -> t0 (start cwd p ++ reals (p_segs p)) = None ->
    sys_mkdir cwd t0 p = Ok (tset (start cwd p ++ reals (p_segs p)) NDir t0)).
  { intros t0 T0 D0 M0. unfold sys_mkdir. rewrite Ne, W, (descend_ok t0 (reals i) x T0) by exact D0. rewrite <- Er, M0. reflexivity. }
  assert (MS : forall t0, tree_ok t0 -> t0 (start cwd p ++ reals i) = Some NDir -> tree_ok (tset (start cwd p ++ reals (p_segs p)) NDir t0)).
  { intros t0 T0 D0. rewrite Er, app_assoc. apply tset_ok; auto. }
  assert (F : (exists n, is_nfile (t (start cwd p ++ firstn n (reals i)))) \/ (forall n, ~ is_nfile (t (start cwd p ++ firstn n (reals i))))).
  { clear. generalize (start cwd p) as a. generalize (reals i) as c. induction c as [|y c IH]; intros a.
    - destruct (t (a ++ [])) as [[d|]|] eqn:E; [left; exists 0%nat, d; exact E| |]; right; intros n (d & H); rewrite firstn_nil in H; congruence.
    - destruct (t (a ++ [])) as [[d|]|] eqn:E; [left; exists 0%nat, d; exact E| |];
        (destruct (IH (a ++ [y])) as [(n & H)|H]; [left; exists (S n); cbn [firstn]; rewrite <- app_assoc in H; exact H|];
         right; intros [|n] (d & G); cbn [firstn] in G; [congruence|]; apply (H n); exists d; rewrite <- app_assoc; exact G). }
  assert (NI : sys_is_dir cwd t p = false) by (apply not_dir_there; [exact Np|unfold dir_at; rewrite M; reflexivity]).
  destruct F as [(n & F)|F].
  - left. split; [eauto|]. cbn [mkdirs]. rewrite Ne. unfold sys_mkdir at 1. rewrite Ne, W, (descend_file t (reals i) x T n) by exact F. rewrite NI. reflexivity.
  - right. split; [exact F|]. destruct (t (start cwd p ++ reals i)) as [[d|]|] eqn:E.
    + exfalso. apply (F (List.length (reals i))). rewrite firstn_all. exists d. exact E.
    + exists (tset (start cwd p ++ reals (p_segs p)) NDir t). cbn [mkdirs]. rewrite Ne, (MK t T E M). split; [reflexivity|].
      split; [apply MS; assumption|]. split; [apply tset_same|]. intros l.
      destruct (list_eq_dec String.string_dec l (start cwd p ++ reals (p_segs p))) as [->|N]; [|left; apply tset_other; exact N].
      right. rewrite tset_same. split; [exact M|]. split; [reflexivity|]. exists (List.length (reals (p_segs p))). rewrite firstn_all. reflexivity.
    + assert (Ni : reals i <> []) by (intros X; rewrite X, app_nil_r in E; congruence).
      destruct (parent_named p i x Es R Ni) as (j & y & Eq & Ry & Ej).
      cbn [mkdirs]. rewrite Ne. unfold sys_mkdir at 1. rewrite Ne, W, (descend_missing t (reals i) x) by assumption. rewrite Eq.
      assert (Ey : reals (j ++ [y]) = reals j ++ [y]) by (rewrite reals_app; unfold reals at 2; cbn [filter]; rewrite Ry; reflexivity).
      set (q := mkPath (p_abs p) (j ++ [y])) in *. assert (Sq : start cwd q = start cwd p) by reflexivity.
      destruct (IH t q j y) as [((n & G) & _)|(_ & t' & Et' & T' & D' & C')].
      * exact T.
      * exact D.
      * intros I. exact (Np (parent_in p q _ Eq I)).
      * apply drop_named. exact Ry.
      * exact Ry.
      * cbn [p_segs q]. rewrite Ej. exact E.
      * cbn [p_segs q]. rewrite Ej. rewrite Er, app_length in L. cbn in L. lia.
      * exfalso. rewrite Sq in G. apply (F (Nat.min n (List.length (reals j)))). rewrite <- Ej, Ey.
        rewrite firstn_app. replace (Nat.min n (List.length (reals j)) - List.length (reals j))%nat with 0%nat by lia.
        rewrite firstn_O, app_nil_r. replace (firstn (Nat.min n (List.length (reals j))) (reals j)) with (firstn n (reals j)); [exact G|].
        rewrite <- firstn_firstn. rewrite firstn_all. reflexivity.
      * rewrite Et'. rewrite Sq in D', C'. cbn [p_segs q] in D', C'. rewrite Ej in D', C'.
        assert (M' : t' (start cwd p ++ reals (p_segs p)) = None).
        { destruct (C' (start cwd p ++ reals (p_segs p))) as [X|(_ & _ & n & X)]; [rewrite X; exact M|]. exfalso.
          apply app_inv_head in X. apply (f_equal (@List.length string)) in X. rewrite Er, app_length, firstn_length in X. cbn in X. lia. }
        rewrite (MK t' T' D' M'). exists (tset (start cwd p ++ reals (p_segs p)) NDir t'). split; [reflexivity|].
        split; [apply MS; assumption|]. split; [apply tset_same|]. intros l.
        destruct (list_eq_dec String.string_dec l (start cwd p ++ reals (p_segs p))) as [->|N].
        -- right. rewrite tset_same. split; [exact M|]. split; [reflexivity|]. exists (List.length (reals (p_segs p))). rewrite firstn_all. reflexivity.
        -- rewrite tset_other by exact N. destruct (C' l) as [X|(X1 & X2 & n & X3)]; [left; exact X|]. right. split; [exact X1|]. split; [exact X2|].
           exists (Nat.min n (List.length (reals i))). rewrite Er, firstn_app.
           replace (Nat.min n (List.length (reals i)) - List.length (reals i))%nat with 0%nat by lia.
           rewrite firstn_O, app_nil_r, X3, <- firstn_firstn, firstn_all. reflexivity.
Qed.
(** Between two calls the first directories exist. *)
Lemma seen_named fuel : forall t p i x, tree_ok t -> t (start cwd p) = Some NDir -> ~ In ".."%string (p_segs p) ->
  drop_slashes (p_segs p) = i ++ [x] -> real_component x = true -> t (start cwd p ++ reals (p_segs p)) = None ->
  (List.length (reals (p_segs p)) <= fuel)%nat -> forall u, In u (mkdirs_seen cwd fuel t p) -> u = t \/
  (forall n, ~ is_nfile (t (start cwd p ++ firstn n (reals i)))) /\ tree_ok u /\ exists n, u (start cwd p ++ firstn n (reals (p_segs p))) = Some NDir /\
    forall l, u l = t l \/ (t l = None /\ u l = Some NDir /\ exists m, l = start cwd p ++ firstn m (firstn n (reals (p_segs p)))).
Proof.
  induction fuel as [|fuel IH]; intros t p i x T D Np Es R M L u Hu.
  { exfalso. rewrite <- reals_drop, Es, reals_app, app_length in L. unfold reals at 2 in L. cbn [filter] in L. rewrite R in L. cbn in L. lia. }
  assert (Er : reals (p_segs p) = reals i ++ [x]).
  { rewrite <- reals_drop, Es, reals_app. unfold reals at 2. cbn [filter]. rewrite R. reflexivity. }
  assert (Ne : empty_path p = false).
  { apply (named_not_empty p x); [|exact R]. apply in_drop. rewrite Es. apply in_or_app. right. left. reflexivity. }
  assert (W : forall t0, walk t0 (start cwd p) (drop_slashes (p_segs p)) = descend t0 (start cwd p) (reals i ++ [x])).
  { intros t0. rewrite walk_names; [rewrite reals_drop, Er; reflexivity| |rewrite Es; eauto]. intros I. apply in_drop in I. exact (Np I). }
  assert (MK : forall t0, tree_ok t0 -> t0 (start cwd p ++ reals i) = Some NDir -> t0 (start cwd p ++ reals (p_segs p)) = None ->
    sys_mkdir cwd t0 p = Ok (tset (start cwd p ++ reals (p_segs p)) NDir t0)).
  { intros t0 T0 D0 M0. unfold sys_mkdir. rewrite Ne, W, (descend_ok t0 (reals i) x T0) by exact D0. rewrite <- Er, M0. reflexivity. }
  assert (MS : forall t0, tree_ok t0 -> t0 (start cwd p ++ reals i) = Some NDir -> tree_ok (tset (start cwd p ++ reals (p_segs p)) NDir t0)).
  { intros t0 T0 D0. rewrite Er, app_assoc. apply tset_ok; auto. }
  assert (F : (exists n, is_nfile (t (start cwd p ++ firstn n (reals i)))) \/ (forall n, ~ is_nfile (t (start cwd p ++ firstn n (reals i))))).
  { clear. generalize (start cwd p) as a. generalize (reals i) as c. induction c as [|y c IH]; intros a.
    - destruct (t (a ++ [])) as [[d|]|] eqn:E; [left; exists 0%nat, d; exact E| |]; right; intros n (d & H); rewrite firstn_nil in H; congruence.
    - destruct (t (a ++ [])) as [[d|]|] eqn:E; [left; exists 0%nat, d; exact E| |];
        (destruct (IH (a ++ [y])) as [(n & H)|H]; [left; exists (S n); cbn [firstn]; rewrite <- app_assoc in H; exact H|];
         right; intros [|n] (d & G); cbn [firstn] in G; [congruence|]; apply (H n); exists d; rewrite <- app_assoc; exact G). }
  assert (NI : sys_is_dir cwd t p = false) by (apply not_dir_there; [exact Np|unfold dir_at; rewrite M; reflexivity]).
  destruct F as [(n & F)|F].
  - cbn [mkdirs_seen] in Hu. rewrite Ne in Hu. unfold sys_mkdir at 1 in Hu. rewrite Ne, W, (descend_file t (reals i) x T n) in Hu by exact F. destruct Hu as [Hu|[]]. auto.
  - assert (Last : forall t0, tree_ok t0 -> t0 (start cwd p ++ reals i) = Some NDir ->
      (forall l, t0 l = t l \/ (t l = None /\ t0 l = Some NDir /\ exists n, l = start cwd p ++ firstn n (reals i))) -> u = tset (start cwd p ++ reals (p_segs p)) NDir t0 ->
      tree_ok u /\ exists n, u (start cwd p ++ firstn n (reals (p_segs p))) = Some NDir /\
        forall l, u l = t l \/ (t l = None /\ u l = Some NDir /\ exists m, l = start cwd p ++ firstn m (firstn n (reals (p_segs p))))).
    { intros t0 T0 D0 C0 ->. split; [apply MS; assumption|]. exists (List.length (reals (p_segs p))). rewrite firstn_all. split; [apply tset_same|].
      intros l. destruct (list_eq_dec String.string_dec l (start cwd p ++ reals (p_segs p))) as [->|N].
      - right. rewrite tset_same. split; [exact M|]. split; [reflexivity|]. exists (List.length (reals (p_segs p))). rewrite firstn_all. reflexivity.
      - rewrite tset_other by exact N. destruct (C0 l) as [X|(X1 & X2 & n & X3)]; [left; exact X|]. right. split; [exact X1|]. split; [exact X2|].
        exists (Nat.min n (List.length (reals i))). rewrite Er, firstn_app.
        replace (Nat.min n (List.length (reals i)) - List.length (reals i))%nat with 0%nat by lia.
        rewrite firstn_O, app_nil_r, X3, <- firstn_firstn, firstn_all. reflexivity. }
    destruct (t (start cwd p ++ reals i)) as [[d|]|] eqn:E.
    + exfalso. apply (F (List.length (reals i))). rewrite firstn_all. exists d. exact E.
    + cbn [mkdirs_seen] in Hu. rewrite Ne, (MK t T E M) in Hu. destruct Hu as [Hu|[Hu|[]]]; [auto|]. right. split; [exact F|]. apply (Last t); auto.
    + assert (Ni : reals i <> []) by (intros X; rewrite X, app_nil_r in E; congruence).
      destruct (parent_named p i x Es R Ni) as (j & y & Eq & Ry & Ej).
      cbn [mkdirs_seen] in Hu. rewrite Ne in Hu. unfold sys_mkdir at 1 in Hu. rewrite Ne, W, (descend_missing t (reals i) x) in Hu by assumption. rewrite Eq in Hu.
      assert (Ey : reals (j ++ [y]) = reals j ++ [y]) by (rewrite reals_app; unfold reals at 2; cbn [filter]; rewrite Ry; reflexivity).
      set (q := mkPath (p_abs p) (j ++ [y])) in *. assert (Sq : start cwd q = start cwd p) by reflexivity.
      assert (Nq : ~ In ".."%string (p_segs q)) by (intros I; exact (Np (parent_in p q _ Eq I))).
      assert (Dq : drop_slashes (p_segs q) = j ++ [y]) by (apply drop_named; exact Ry).
      assert (Mq : t (start cwd q ++ reals (p_segs q)) = None) by (cbn [p_segs q]; rewrite Ej; exact E).
      assert (Lq : (List.length (reals (p_segs q)) <= fuel)%nat) by (cbn [p_segs q]; rewrite Ej; rewrite Er, app_length in L; cbn in L; lia).
      destruct Hu as [Hu|Hu]; [auto|]. apply in_app_or in Hu as [Hu|Hu].
      * destruct (IH t q j y T D Nq Dq Ry Mq Lq u Hu) as [->|(_ & Tu & n & Du & Cu)]; [auto|]. right. split; [exact F|]. split; [exact Tu|].
        rewrite Sq in Du, Cu. cbn [p_segs q] in Du, Cu. rewrite Ej in Du, Cu.
        assert (X : firstn (Nat.min n (List.length (reals i))) (reals (p_segs p)) = firstn n (reals i)).
        { rewrite Er, firstn_app. replace (Nat.min n (List.length (reals i)) - List.length (reals i))%nat with 0%nat by lia.
          rewrite firstn_O, app_nil_r, <- firstn_firstn, firstn_all. reflexivity. }
        exists (Nat.min n (List.length (reals i))). rewrite X. auto.
      * destruct (mkdirs_named fuel t q j y T D Nq Dq Ry Mq Lq) as [(_ & Et)|(_ & t' & Et & T' & D' & C')]; rewrite Et in Hu; [destruct Hu|].
        rewrite Sq in D', C'. cbn [p_segs q] in D', C'. rewrite Ej in D', C'.
        assert (M' : t' (start cwd p ++ reals (p_segs p)) = None).
        { destruct (C' (start cwd p ++ reals (p_segs p))) as [X|(_ & _ & n & X)]; [rewrite X; exact M|]. exfalso.
          apply app_inv_head in X. apply (f_equal (@List.length string)) in X. rewrite Er, app_length, firstn_length in X. cbn in X. lia. }
        rewrite (MK t' T' D' M') in Hu. destruct Hu as [Hu|[]]. right. split; [exact F|]. apply (Last t'); auto.
Qed.
End Make.

(** * Storages *)
Lemma drop_last segs i x : drop_slashes segs = i ++ [x] -> x <> ""%string.
Proof.
  revert i. induction segs as [|s r IH]; intros i E; [destruct i; discriminate|]. cbn [drop_slashes] in E. destruct (drop_slashes r) as [|y d] eqn:Ed.
  - destruct (String.eqb_spec s ""); [destruct i; discriminate|]. destruct i as [|? [|]]; [|discriminate|discriminate]. injection E as <-. assumption.
  - destruct i as [|z i]; [discriminate|]. cbn [app] in E. injection E as _ E. exact (IH i E).
Qed.
Lemma dirs_shown a at_ t t' w c : tree_ok t' -> shows a at_ t w -> t' (at_ ++ c) = Some NDir ->
  (forall l, t' l = t l \/ (t l = None /\ t' l = Some NDir /\ exists n, l = at_ ++ firstn n c)) ->
  shows a at_ t' (set_dirs (fun x => w_dirs w x || is_prefix_of x (a, c)) w).
Proof.
  intros T S D C l. destruct (S l) as (F & I). split.
  - change (w_files w (a, l) = match t' (at_ ++ l) with Some (NFile d) => Some d | _ => None end). rewrite F.
    destruct (C (at_ ++ l)) as [->|(-> & -> & _)]; reflexivity.
  - unfold is_dir in *. cbn [w_dirs set_dirs snd] in *. rewrite orb_comm, orb_assoc, (orb_comm _ (w_dirs w (a, l))), I.
    unfold is_prefix_of. cbn [fst snd]. rewrite Bool.eqb_reflx. cbn [andb]. destruct (comps_eqb l (firstn (List.length l) c)) eqn:P.
    + apply comps_eqb_eq in P. rewrite orb_true_r. unfold dir_at. rewrite P. rewrite (above_n t' at_ c _ T D). reflexivity.
    + rewrite orb_false_r. unfold dir_at. destruct (C (at_ ++ l)) as [->|(_ & _ & n & E)]; [reflexivity|]. exfalso. apply app_inv_head in E.
      assert (X : comps_eqb l (firstn (List.length l) c) = true); [|congruence]. apply comps_eqb_eq. rewrite E at 1.
      rewrite E, firstn_length. destruct (Nat.le_ge_cases n (List.length c)); [rewrite Nat.min_l by lia; reflexivity|].
      rewrite Nat.min_r, firstn_all by lia. apply firstn_all2. lia.
Qed.

Lemma create_agrees cwd t w id base n (a := is_absolute base) (at_ := if a then [] else cwd) :
  tree_ok t -> t at_ = Some NDir -> shows a at_ t w -> w_faults w = [] ->
  no_parent base -> ~ is_nfile (t (at_ ++ names_of base)) -> (ends_with_dot base -> t (at_ ++ names_of base) = Some NDir) ->
  is_absolute n = false -> no_parent n -> ends_with_name n ->
  exists w', create_output_stream (FileStorage id base) n w =
      (Ret (match fst (tree_create cwd t base n) with Ok _ => Ok (SFile (res_key (FileStorage id base) n) 0) | Er k => Er k end), w') /\
    tree_ok (snd (tree_create cwd t base n)) /\ shows a at_ (snd (tree_create cwd t base n)) w'.
Proof.
  intros T D S Hf Pb Nf Dot Hn Pn En. assert (Aj : is_absolute (path_join base n) = a) by (apply absolute_join; exact Hn).
  assert (Pj := no_parent_join base n Hn Pb Pn). assert (Ej := ends_join base n Hn En).
  assert (FIN : forall t1 w1, tree_ok t1 -> shows a at_ t1 w1 -> w_faults w1 = [] ->
    exists w', file_create (res_key (FileStorage id base) n) w1 =
      (Ret (match fst (match sys_create cwd t1 (path_of (path_join base n)) with Er k => (Er k, t1) | Ok t2 => (Ok tt, t2) end)
            with Ok _ => Ok (SFile (res_key (FileStorage id base) n) 0) | Er k => Er k end), w') /\
    tree_ok (snd (match sys_create cwd t1 (path_of (path_join base n)) with Er k => (@Er unit io_kind k, t1) | Ok t2 => (Ok tt, t2) end)) /\
    shows a at_ (snd (match sys_create cwd t1 (path_of (path_join base n)) with Er k => (@Er unit io_kind k, t1) | Ok t2 => (Ok tt, t2) end)) w').
  { intros t1 w1 T1 S1 F1. assert (C := named_create cwd a t1 w1 (path_join base n) T1 S1 Aj Pj Ej F1).
    change (res_key (FileStorage id base) n) with (key_of (path_join base n)).
    destruct (sys_create cwd t1 (path_of (path_join base n))) as [t2|k]; cbn [fst snd].
    - destruct C as (w' & E & T2 & S2 & _). exists w'. auto.
    - exists w1. auto. }
  unfold create_output_stream, path_exists, syscall, mbind at 1 2, next_fault, tree_create. rewrite Hf. cbn [mret].
  assert (Kb : key_of base = (a, names_of base)) by reflexivity. rewrite Kb, (shown_on_disk a at_ t w S).
  assert (Sb : start cwd (path_of base) = at_) by reflexivity.
  destruct (t (at_ ++ names_of base)) as [[d|]|] eqn:E; [exfalso; apply Nf; exists d; reflexivity| |].
  - assert (X : (if sys_exists cwd t (path_of base) then (Ok tt, t)
                 else mkdirs cwd (Datatypes.S (List.length (p_segs (path_of base)))) t (path_of base)) = (Ok tt, t)).
    { unfold sys_exists, resolve. destruct (empty_path (path_of base)) eqn:Em.
      - cbn [mkdirs]. rewrite Em. reflexivity.
      - cbn [p_segs path_of]. rewrite Sb, (walk_dir t (split_slash base) T Pb at_ E). rewrite <- names_reals, E. reflexivity. }
    rewrite X. cbn iota. unfold mtry, mbind. cbn [mret]. apply FIN; assumption.
  - assert (Ex : sys_exists cwd t (path_of base) = false).
    { unfold sys_exists, resolve. destruct (empty_path (path_of base)); [reflexivity|]. rewrite Sb. cbn [p_segs path_of].
      destruct (walk t at_ (split_slash base)) as [l|k] eqn:W; [|reflexivity]. apply walk_loc in W; [|exact Pb].
      subst l. rewrite <- names_reals, E. reflexivity. }
    rewrite Ex. assert (Nn : names_of base <> []) by (intros X; rewrite X, app_nil_r in E; congruence).
    assert (Dr : exists i x, drop_slashes (split_slash base) = i ++ [x] /\ real_component x = true).
    { assert (N : drop_slashes (split_slash base) <> []) by (intros X; apply Nn; rewrite names_reals, <- reals_drop, X; reflexivity).
      destruct (exists_last N) as (i & x & Ei). exists i, x. split; [exact Ei|]. apply real_dots. split; [exact (drop_last _ _ _ Ei)|].
      intros ->. destruct (drop_spec (split_slash base)) as (m & Em). assert (Y : ends_with_dot base); [|apply Dot in Y; congruence].
      exists i, m. rewrite Em, Ei, <- app_assoc. reflexivity. }
    destruct Dr as (i & x & Ei & R).
    assert (Er : names_of base = reals i ++ [x]).
    { rewrite names_reals, <- reals_drop, Ei, reals_app. unfold reals at 2. cbn [filter]. rewrite R. reflexivity. }
    unfold mtry, mbind, create_dir_all, syscall, next_fault. rewrite Hf.
    assert (L : (List.length (reals (split_slash base)) <= Datatypes.S (List.length (split_slash base)))%nat).
    { clear. unfold reals. induction (split_slash base) as [|y l IH]; [cbn; lia|]. cbn [filter]. destruct (real_component y); cbn [List.length] in *; lia. }
    destruct (mkdirs_named cwd (Datatypes.S (List.length (split_slash base))) t (path_of base) i x T D Pb Ei R E L) as [((m & F) & M)|(F & t' & M & T' & D' & C')].
    + cbn [p_segs path_of] in *. rewrite M. cbn [fst snd]. exists w. split; [|auto].
      assert (P : file_on_path (a, names_of base) w = true).
      { apply (shown_path a at_ t w S). exists (Nat.min m (List.length (reals i))). rewrite Er, firstn_app.
        replace (Nat.min m (List.length (reals i)) - List.length (reals i))%nat with 0%nat by lia.
        rewrite firstn_O, app_nil_r, <- firstn_firstn, firstn_all. exact F. }
      rewrite P. reflexivity.
    + cbn [p_segs path_of] in *. rewrite M. cbn [fst snd].
      assert (P : file_on_path (a, names_of base) w = false).
      { destruct (file_on_path (a, names_of base) w) eqn:P; [|reflexivity]. exfalso. apply (shown_path a at_ t w S) in P. destruct P as (m & P).
        destruct (Nat.le_gt_cases m (List.length (reals i))) as [L2|L2].
        - apply (F m). rewrite Er, firstn_app in P. replace (m - List.length (reals i))%nat with 0%nat in P by lia. rewrite firstn_O, app_nil_r in P. exact P.
        - rewrite firstn_all2 in P; [destruct P as (d & P); congruence|]. rewrite Er, app_length. cbn. lia. }
      rewrite P. apply FIN; [exact T'| |exact Hf]. apply (dirs_shown a at_ t t' w (names_of base) T' S); assumption.
Qed.

(** If the process is killed between two of the calls of create_dir_all. *)
Lemma seen_agrees cwd t w base u (a := is_absolute base) (at_ := if a then [] else cwd) :
  tree_ok t -> t at_ = Some NDir -> shows a at_ t w ->
  no_parent base -> t (at_ ++ names_of base) = None -> ~ ends_with_dot base ->
  In u (mkdirs_seen cwd (Datatypes.S (List.length (p_segs (path_of base)))) t (path_of base)) ->
  exists n w', create_dir_all (key_of base) (set_faults [FCrash n] w) = (Crash, w') /\ tree_ok u /\ shows a at_ u w'.
Proof.
  intros T D S Pb E Dot Hu. assert (Kb : key_of base = (a, names_of base)) by reflexivity.
  assert (S0 : forall f, shows a at_ f (set_faults [] w) <-> shows a at_ f w) by (intros f; split; intros H; exact H).
  assert (R : forall n, create_dir_all (key_of base) (set_faults [FCrash n] w) =
    (Crash, if file_on_path (key_of base) w then set_faults [] w else make_dirs (key_of base) n (set_faults [] w))) by reflexivity.
  assert (Nn : names_of base <> []) by (intros X; rewrite X, app_nil_r in E; congruence).
  assert (Dr : exists i x, drop_slashes (split_slash base) = i ++ [x] /\ real_component x = true).
  { assert (N : drop_slashes (split_slash base) <> []) by (intros X; apply Nn; rewrite names_reals, <- reals_drop, X; reflexivity).
    destruct (exists_last N) as (i & x & Ei). exists i, x. split; [exact Ei|]. apply real_dots. split; [exact (drop_last _ _ _ Ei)|].
    intros ->. destruct (drop_spec (split_slash base)) as (m & Em). apply Dot.
    exists i, m. rewrite Em, Ei, <- app_assoc. reflexivity. }
  destruct Dr as (i & x & Ei & Rx).
  assert (Er : names_of base = reals i ++ [x]).
  { rewrite names_reals, <- reals_drop, Ei, reals_app. unfold reals at 2. cbn [filter]. rewrite Rx. reflexivity. }
  assert (L : (List.length (reals (split_slash base)) <= Datatypes.S (List.length (split_slash base)))%nat).
  { clear. unfold reals. induction (split_slash base) as [|y l IH]; [cbn; lia|]. cbn [filter]. destruct (real_component y); cbn [List.length] in *; lia. }
  destruct (seen_named cwd _ t (path_of base) i x T D Pb Ei Rx E L u Hu) as [->|(F & Tu & n & Du & Cu)].
  - exists 0%nat. eexists. split; [apply R|]. split; [exact T|]. destruct (file_on_path (key_of base) w); [apply S0; exact S|].
    unfold make_dirs. rewrite Kb. cbn [fst snd firstn]. apply (dirs_shown a at_ t t); auto. rewrite app_nil_r. exact D.
  - exists n. eexists. split; [apply R|]. split; [exact Tu|].
    assert (P : file_on_path (key_of base) w = false).
    { rewrite Kb. destruct (file_on_path (a, names_of base) w) eqn:P; [|reflexivity]. exfalso. apply (shown_path a at_ t w S) in P. destruct P as (m & P).
      destruct (Nat.le_gt_cases m (List.length (reals i))) as [L2|L2].
      - apply (F m). rewrite Er, firstn_app in P. replace (m - List.length (reals i))%nat with 0%nat in P by lia. rewrite firstn_O, app_nil_r in P. exact P.
      - rewrite firstn_all2 in P; [destruct P as (d & P); congruence|]. rewrite Er, app_length. cbn. lia. }
    rewrite P. unfold make_dirs. rewrite Kb. cbn [fst snd]. apply (dirs_shown a at_ t u); auto.
Qed.

Section Agree.
Context (cwd : list string) (t : tree) (w : world) (id : nat) (base n : string).
Let a := is_absolute base.
Let at_ := if a then [] else cwd.
Hypotheses (T : tree_ok t) (S : shows a at_ t w) (Hf : w_faults w = []) (Pb : no_parent base)
  (Hn : is_absolute n = false) (Pn : no_parent n) (En : ends_with_name n).
Lemma exists_agrees : exists_ (FileStorage id base) n w = (Ret (tree_exists cwd t base n), w).
Proof.
  unfold exists_, tree_exists, path_exists, syscall, mbind, next_fault. rewrite Hf. cbn [mret].
  rewrite (named_exists cwd a t w (path_join base n) T S (absolute_join base n Hn) (no_parent_join base n Hn Pb Pn) (ends_join base n Hn En)). reflexivity.
Qed.
Lemma read_agrees : w_maps w id (path_join base n) = None ->
  fst (read_resource (FileStorage id base) n w) = Ret (match tree_read cwd t base n with Ok c => Ok (whole c) | Er k => Er k end).
Proof.
  intros Hm. unfold read_resource, tree_read, path_exists, syscall, mbind, next_fault. rewrite Hf. cbn [mret].
  rewrite (named_exists cwd a t w (path_join base n) T S (absolute_join base n Hn) (no_parent_join base n Hn Pb Pn) (ends_join base n Hn En)).
  change (res_key (FileStorage id base) n) with (key_of (path_join base n)). destruct (on_disk (key_of (path_join base n)) w) eqn:O; [|reflexivity].
  destruct (named_map cwd a t w (path_join base n) T S (absolute_join base n Hn) (no_parent_join base n Hn Pb Pn) (ends_join base n Hn En) id Hm Hf O) as (w' & E).
  change (res_path (FileStorage id base) n) with (path_join base n). rewrite E. reflexivity.
Qed.
End Agree.

(** * A path that ends with [.] *)
Lemma mkdir_changes cwd t p t' : ~ In ".."%string (p_segs p) -> sys_mkdir cwd t p = Ok t' ->
  forall l, t' l = t l \/ l = start cwd p ++ reals (p_segs p).
Proof.
  intros Np E l. unfold sys_mkdir in E. destruct (empty_path p); [discriminate|].
  destruct (walk t (start cwd p) (drop_slashes (p_segs p))) as [l0|k] eqn:W; [|discriminate].
  apply walk_loc in W; [|intros I; apply in_drop in I; exact (Np I)]. rewrite reals_drop in W. subst l0.
  destruct (t (start cwd p ++ reals (p_segs p))); [discriminate|]. injection E as <-.
  destruct (list_eq_dec String.string_dec l (start cwd p ++ reals (p_segs p))); [auto|left; apply tset_other; assumption].
Qed.
Lemma mkdirs_changes cwd fuel : forall t p r t', ~ In ".."%string (p_segs p) -> mkdirs cwd fuel t p = (r, t') ->
  forall l, t' l = t l \/ exists n, l = start cwd p ++ firstn n (reals (p_segs p)).
Proof.
  assert (ALL : forall p, start cwd p ++ reals (p_segs p) = start cwd p ++ firstn (List.length (reals (p_segs p))) (reals (p_segs p))) by (intros p; rewrite firstn_all; reflexivity).
  induction fuel as [|fuel IH]; intros t p r t' Np E l; cbn [mkdirs] in E.
  - destruct (empty_path p); [injection E as _ <-; auto|]. destruct (sys_mkdir cwd t p) as [t1|k] eqn:M.
    + injection E as _ <-. destruct (mkdir_changes cwd t p t1 Np M l) as [X|X]; [auto|right; rewrite X; eexists; apply ALL].
    + destruct k; try (injection E as _ <-; auto). destruct (parent_path p); injection E as _ <-; auto.
  - destruct (empty_path p); [injection E as _ <-; auto|]. destruct (sys_mkdir cwd t p) as [t1|k] eqn:M.
    + injection E as _ <-. destruct (mkdir_changes cwd t p t1 Np M l) as [X|X]; [auto|right; rewrite X; eexists; apply ALL].
    + destruct k; try (injection E as _ <-; auto). destruct (parent_path p) as [q|] eqn:Q; [|injection E as _ <-; auto].
      assert (Nq : ~ In ".."%string (p_segs q)) by (intros I; exact (Np (parent_in p q _ Q I))).
      destruct (parent_reals p q Q) as (Aq & m & Eq). assert (Sq : start cwd q = start cwd p) by (unfold start; rewrite Aq; reflexivity).
      destruct (mkdirs cwd fuel t q) as [[u|k] t1] eqn:K.
      * assert (C1 : t1 l = t l \/ exists n, l = start cwd p ++ firstn n (reals (p_segs p))).
        { destruct (IH t q _ _ Nq K l) as [X|(n & X)]; [auto|]. right. rewrite Sq, Eq, firstn_firstn in X. eauto. }
        destruct (sys_mkdir cwd t1 p) as [t2|k2] eqn:M2; injection E as _ <-; [|exact C1].
        destruct (mkdir_changes cwd t1 p t2 Np M2 l) as [X|X]; [rewrite X; exact C1|right; rewrite X; eexists; apply ALL].
      * injection E as _ <-. destruct (IH t q _ _ Nq K l) as [X|(n & X)]; [auto|]. right. rewrite Sq, Eq, firstn_firstn in X. eauto.
Qed.

Lemma dot_mkdir cwd t p i m : ~ In ".."%string (p_segs p) -> p_segs p = i ++ "."%string :: repeat ""%string m ->
  dir_at t (start cwd p ++ reals (p_segs p)) = false -> exists k, sys_mkdir cwd t p = Er k.
Proof.
  intros Np E D. unfold sys_mkdir. destruct (empty_path p); [eauto|].
  assert (X : drop_slashes (p_segs p) = i ++ ["."%string]).
  { rewrite E. clear. induction i as [|s i IH]; cbn [app drop_slashes].
    - replace (drop_slashes (repeat ""%string m)) with (@nil string); [reflexivity|]. induction m as [|m IH]; [reflexivity|]. cbn. rewrite <- IH. reflexivity.
    - rewrite IH. destruct (i ++ ["."%string]) eqn:Ei; [destruct i; discriminate|reflexivity]. }
  rewrite X, walk_app. destruct (walk t (start cwd p) i) as [l|k] eqn:W; [|eauto].
  assert (R : reals (p_segs p) = reals i).
  { rewrite E, reals_app. unfold reals at 2. cbn [filter]. change (real_component ".") with false. cbn iota. fold (reals (repeat ""%string m)). rewrite reals_repeat. apply app_nil_r. }
  apply walk_loc in W; [|intros I; apply Np; rewrite E; apply in_or_app; auto]. rewrite R, <- W in D. cbn [walk]. unfold dir_at in D.
  destruct (t l) as [[]|]; [eauto|discriminate|eauto].
Qed.
Lemma dot_fails cwd t base n (at_ := if is_absolute base then [] else cwd) : t at_ = Some NDir -> no_parent base -> ends_with_dot base ->
  t (at_ ++ names_of base) = None ->
  exists k, fst (tree_create cwd t base n) = Er k /\ snd (tree_create cwd t base n) (at_ ++ names_of base) = None.
Proof.
  intros D Pb (i & m & Es) E. unfold tree_create. assert (Sb : start cwd (path_of base) = at_) by reflexivity. set (p := path_of base) in *.
  assert (Np : ~ In ".."%string (p_segs p)) by exact Pb. assert (Ep : p_segs p = i ++ "."%string :: repeat ""%string m) by exact Es.
  rewrite names_reals in E |- *. change (split_slash base) with (p_segs p) in *. rewrite <- Sb in *.
  assert (Ex : sys_exists cwd t p = false).
  { unfold sys_exists, resolve. destruct (empty_path p); [reflexivity|]. destruct (walk t (start cwd p) (p_segs p)) as [l|k] eqn:W; [|reflexivity].
    apply walk_loc in W; [|exact Np]. subst l. rewrite E. reflexivity. }
  rewrite Ex. cbn [mkdirs].
  assert (Ne : empty_path p = false).
  { unfold empty_path. rewrite Ep, forallb_app. cbn [forallb]. change (String.eqb "" ".") with false. cbn [andb]. rewrite !andb_false_r. reflexivity. }
  assert (De : dir_at t (start cwd p ++ reals (p_segs p)) = false) by (unfold dir_at; rewrite E; reflexivity).
  rewrite Ne. destruct (dot_mkdir cwd t p i m Np Ep De) as (k & ->).
  assert (ND := not_dir_there cwd t p Np De).
  destruct k; try (rewrite ND; cbn [fst snd]; eauto).
  destruct (parent_path p) as [q|] eqn:Q; [|cbn [fst snd]; eauto].
  assert (Nq : ~ In ".."%string (p_segs q)) by (intros I; exact (Np (parent_in p q _ Q I))).
  assert (Aq : p_abs q = p_abs p) by exact (proj1 (parent_reals p q Q)).
  assert (Sq : start cwd q = start cwd p) by (unfold start; rewrite Aq; reflexivity).
  assert (Lq : reals (p_segs p) <> [] -> (List.length (reals (p_segs q)) < List.length (reals (p_segs p)))%nat).
  { intros N. destruct (trim_spec (p_abs p) (rev (p_segs p))) as (y & r & s & Et & Ry & El & Er).
    { rewrite reals_rev. intros X. apply N. apply (f_equal (@rev string)) in X. rewrite rev_involutive in X. exact X. }
    unfold parent_path in Q. rewrite Et in Q. injection Q as <-. cbn [p_segs]. rewrite reals_rev, trim_reals, rev_length.
    apply (f_equal reals) in El. rewrite reals_rev, reals_app, Er in El. cbn [app] in El. unfold reals at 2 in El. cbn [filter] in El. rewrite Ry in El.
    apply (f_equal (@List.length string)) in El. rewrite rev_length in El. cbn [List.length] in El. unfold reals in *. lia. }
  assert (Nr : reals (p_segs p) <> []) by (intros X; rewrite X, app_nil_r in E; congruence). specialize (Lq Nr).
  destruct (mkdirs cwd (List.length (p_segs p)) t q) as [[u|k] t1] eqn:K.
  - assert (E1 : t1 (start cwd p ++ reals (p_segs p)) = None).
    { destruct (mkdirs_changes cwd _ t q _ _ Nq K (start cwd p ++ reals (p_segs p))) as [X|(x & X)]; [rewrite X; exact E|]. exfalso. rewrite Sq in X.
      apply app_inv_head in X. apply (f_equal (@List.length string)) in X. rewrite firstn_length in X. lia. }
    assert (D1 : dir_at t1 (start cwd p ++ reals (p_segs p)) = false) by (unfold dir_at; rewrite E1; reflexivity).
    destruct (dot_mkdir cwd t1 p i m Np Ep D1) as (k & ->). rewrite (not_dir_there cwd t1 p Np D1). cbn [fst snd]. eauto.
  - cbn [fst snd]. exists k. split; [reflexivity|].
    destruct (mkdirs_changes cwd _ t q _ _ Nq K (start cwd p ++ reals (p_segs p))) as [X|(x & X)]; [rewrite X; exact E|]. exfalso. rewrite Sq in X.
    apply app_inv_head in X. apply (f_equal (@List.length string)) in X. rewrite firstn_length in X. lia.
Qed.

(** * Where names lead *)
Lemma empty_only s : s <> ""%string -> empty_path (path_of s) = false.
Proof.
  intros N. destruct s as [|c r]; [congruence|]. unfold empty_path, path_of. cbn [p_abs p_segs is_absolute split_slash].
  destruct (Ascii.eqb c slash); [reflexivity|]. destruct (split_slash r); reflexivity.
Qed.
Lemma join_not_empty base n : is_absolute n = false -> base <> ""%string -> path_join base n <> ""%string.
Proof. intros Hn Nb. unfold path_join. rewrite Hn. destruct base; [congruence|]. destruct (ends_with_slash _); discriminate. Qed.
Lemma walk_last t at_ i l : walk t at_ (i ++ [""%string]) = Ok l -> walk t at_ i = Ok l /\ t l = Some NDir.
Proof.
  rewrite walk_app. destruct (walk t at_ i) as [l'|]; [|discriminate]. cbn. destruct (t l') as [[]|] eqn:E; try discriminate. injection 1 as <-. auto.
Qed.
Lemma resolve_join cwd t base n l : is_absolute n = false -> base <> ""%string -> t l = Some NDir ->
  resolve cwd t (path_of base) = Ok l -> resolve cwd t (path_of (path_join base n)) = walk t l (split_slash n).
Proof.
  intros Hn Nb D. unfold resolve. rewrite (empty_only base Nb), (empty_only _ (join_not_empty base n Hn Nb)).
  unfold start. cbn [p_abs p_segs path_of]. rewrite (absolute_join base n Hn). destruct (split_join base n Hn Nb) as (i & E & B & _). rewrite E, walk_app.
  intros R. destruct B as [B|B]; rewrite B in R; [|apply walk_last in R; destruct R as (R & _)]; rewrite R; reflexivity.
Qed.
Lemma confined cwd t base n l : is_absolute n = false -> base <> ""%string -> no_parent n ->
  resolve cwd t (path_of (path_join base n)) = Ok l ->
  exists lb, resolve cwd t (path_of base) = Ok lb /\ t lb = Some NDir /\ l = lb ++ names_of n.
Proof.
  intros Hn Nb Pn. unfold resolve. rewrite (empty_only base Nb), (empty_only _ (join_not_empty base n Hn Nb)).
  unfold start. cbn [p_abs p_segs path_of]. rewrite (absolute_join base n Hn). destruct (split_join base n Hn Nb) as (i & E & B & _). rewrite E, walk_app.
  destruct (walk t _ i) as [lb|] eqn:W; [|discriminate]. intros R. exists lb.
  assert (D : t lb = Some NDir). { destruct (split_slash_cons n) as (h & r & En). rewrite En in R. cbn in R. destruct (t lb) as [[]|]; congruence. }
  split; [|split; [exact D|exact (walk_loc t _ Pn lb l R)]]. destruct B as [B|B]; rewrite B; [exact W|]. rewrite walk_app, W. cbn. rewrite D. reflexivity.
Qed.

(** * Names with [..] *)
Lemma split_up n : no_slash n = true -> split_slash ("../" ++ n) = [".."; n]%string.
Proof. intros H. cbn. rewrite (split_no_slash n H). reflexivity. Qed.
Lemma split_over s n : no_slash s = true -> no_slash n = true -> split_slash (s ++ "/../" ++ n) = [s; ".."; n]%string.
Proof.
  intros Hs Hn. rewrite (split_slash_app s ("/../" ++ n) [] s ""%string ["..";n]%string); [rewrite sapp_nil_r; reflexivity|exact (split_no_slash s Hs)|].
  cbn. rewrite (split_no_slash n Hn). reflexivity.
Qed.
Lemma dir_up t l : tree_ok t -> t l = Some NDir -> t (removelast l) = Some NDir.
Proof.
  intros T D. destruct l as [|x l] using rev_ind; [exact D|]. rewrite removelast_snoc. apply (tree_above t T l x). congruence.
Qed.
Lemma resolve_up cwd t base n l : tree_ok t -> base <> ""%string -> resolve cwd t (path_of base) = Ok l -> t l = Some NDir ->
  valid_name n -> n <> ".."%string -> resolve cwd t (path_of (path_join base ("../" ++ n))) = Ok (removelast l ++ [n]).
Proof.
  intros T Nb R D V N. rewrite (resolve_join cwd t base ("../" ++ n) l eq_refl Nb D R), split_up by exact (proj1 V). cbn [walk]. rewrite D.
  change (real_component "..") with true. cbn. rewrite (dir_up t l T D), (real_valid n V). cbn. apply String.eqb_neq in N. rewrite N. reflexivity.
Qed.
Lemma not_absolute_app s r : valid_name s -> is_absolute (s ++ r) = false.
Proof. intros (H & N & _). rewrite is_absolute_app by exact N. apply not_absolute. exact H. Qed.
Lemma resolve_over cwd t base s n l : tree_ok t -> base <> ""%string -> resolve cwd t (path_of base) = Ok l -> t (l ++ [s]) = Some NDir ->
  valid_name s -> s <> ".."%string -> valid_name n -> n <> ".."%string ->
  resolve cwd t (path_of (path_join base (s ++ "/../" ++ n))) = Ok (l ++ [n]) /\ resolve cwd t (path_of (path_join base n)) = Ok (l ++ [n]).
Proof.
  intros T Nb R Ds Vs Ns V N. assert (D : t l = Some NDir) by (apply (tree_above t T l s); congruence).
  rewrite (resolve_join cwd t base _ l (not_absolute_app s _ Vs) Nb D R), split_over by (exact (proj1 Vs) || exact (proj1 V)).
  rewrite (resolve_join cwd t base n l (not_absolute n (proj1 V)) Nb D R), split_no_slash by exact (proj1 V).
  apply String.eqb_neq in N. apply String.eqb_neq in Ns. cbn [walk]. rewrite D, (real_valid s Vs), (real_valid n V). cbn [negb]. rewrite N, Ns, Ds.
  change (real_component "..") with true. cbn. rewrite removelast_snoc, D. auto.
Qed.
Lemma create_at cwd t base n l l' : base <> ""%string -> resolve cwd t (path_of base) = Ok l -> t l = Some NDir ->
  resolve cwd t (path_of (path_join base n)) = Ok l' -> dir_at t l' = false -> tree_create cwd t base n = (Ok tt, tset l' (NFile []) t).
Proof. intros Nb R D R' D'. unfold tree_create, sys_exists. rewrite R, D. unfold sys_create. rewrite R', D'. reflexivity. Qed.

(** * Memory *)
Lemma component_inj x y : component_of x = component_of y -> x = y.
Proof.
  unfold component_of. destruct (String.eqb_spec x ".."), (String.eqb_spec y ".."); congruence.
Qed.
Lemma components_inj l m : map component_of l = map component_of m -> l = m.
Proof.
  revert m. induction l as [|x l IH]; intros [|y m] E; try discriminate; [reflexivity|]. cbn in E. injection E as E1 E2.
  f_equal; [exact (component_inj x y E1)|exact (IH m E2)].
Qed.
Definition leads (p : string) : list component :=
  if is_absolute p then [RootDir] else match split_slash p with s :: _ => if String.eqb s "." then [CurDir] else [] | [] => [] end.
Lemma components_leads p : components p = leads p ++ map component_of (snd (key_of p)).
Proof. reflexivity. Qed.
Lemma components_key p q : leads p = leads q -> (components p = components q <-> key_of p = key_of q).
Proof.
  intros L. rewrite !components_leads, L. split.
  - intros E. apply app_inv_head, components_inj in E. unfold key_of in *. cbn [snd] in E. rewrite E. f_equal.
    unfold leads in L. destruct (is_absolute p), (is_absolute q); auto; (destruct (split_slash p), (split_slash q); try discriminate L);
      repeat (match type of L with context [String.eqb ?x ?y] => destruct (String.eqb x y) end); discriminate L.
  - intros ->. reflexivity.
Qed.
Lemma leads_join base n : is_absolute n = false -> base <> ""%string -> leads (path_join base n) = leads base.
Proof.
  intros Hn Nb. unfold leads. rewrite (absolute_join base n Hn). destruct (split_join base n Hn Nb) as (i & E & B & Ni). rewrite E.
  destruct i as [|x i]; [congruence|]. destruct B as [-> | ->]; reflexivity.
Qed.

(** * Names that end with a slash *)
Lemma slash_fails cwd t base n : is_absolute n = false -> base <> ""%string -> ~ ends_with_name n ->
  exists k, fst (tree_create cwd t base n) = Er k.
Proof.
  intros Hn Nb Ne. unfold tree_create. destruct (if sys_exists cwd t (path_of base) then _ else _) as [[u|k] t1]; [|cbn; eauto].
  assert (X : exists k, sys_create cwd t1 (path_of (path_join base n)) = Er k); [|destruct X as (k & ->); cbn; eauto].
  unfold sys_create, resolve. rewrite (empty_only _ (join_not_empty base n Hn Nb)). unfold start. cbn [p_abs p_segs path_of].
  destruct (split_join base n Hn Nb) as (i & E & _). destruct (split_slash_last n) as (j & l & El). rewrite E, El, app_assoc, walk_app.
  destruct (walk t1 _ (i ++ j)) as [l'|k]; [|eauto]. cbn [walk]. destruct (real_component l) eqn:R; [exfalso; apply Ne; exists j, l; auto|].
  cbn [negb]. destruct (t1 l') as [[]|] eqn:D; eauto. unfold dir_at. rewrite D. eauto.
Qed.
