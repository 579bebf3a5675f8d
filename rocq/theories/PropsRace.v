(** Property C74: two processes that create an archive at the same place.
    Vocabulary: [create_between] (a creation whose check and writes happen at
    different times) in RaceSpec.v; [build_session] in DuringSpec.v; [moment],
    [world_at] in MomentSpec.v; [history] in BuilderSpec.v. *)
From Verif Require Import Base BaseFacts Codec CodecSpec Structs StructsSpec Views ViewsSpec.
From Verif Require Import Storage PathFacts StorageSpec StorageMore PropsStorage Writers WritersSpec MultiViews MultiSpec.
From Verif Require Import Archives ArchiveSpec PropsArchive BuilderSpec BuilderUse PropsBuilder PropsProgress.
From Verif Require Import MomentSpec PropsMoments DuringSpec DuringUse PropsDuring RaceSpec RaceFacts.
Local Open Scope list_scope.
Local Open Scope Z_scope.

(** ** The creation is the one of C30 if nothing happens meanwhile. *)
Theorem C74_still b e id base n schema w :
  create_between b e id base n schema w w = create_archive b e (FileStorage id base) n schema (restart w).
Proof. apply create_between_still. Qed.
Print Assumptions C74_still.

(** ** C74: there is one system call of the builder, among its first four, after
    which a second creation is refused and changes nothing. *)
Theorem C74_refused_partial b e lim a id base ops A w : let st := FileStorage id base in
  wf_archive true a -> dirs_apart a -> maps_ok w -> unused_storage st w -> empty_place st w ->
  history true a no_plan ops A ->
  exists n, (1 <= n <= 4)%nat /\ forall x,
  let w' := restart (world_at (build_session b e lim a st ops) w x) in
  ((n <= calls_done x)%nat -> forall b2 e2 id2 schema,
     create_archive b2 e2 (FileStorage id2 base) (ad_name a) schema w' =
     (Ret (Er (EIo KAlreadyExists (signature_name (ad_name a)))), w')) /\
  ((calls_done x < n)%nat -> forall id2, present (FileStorage id2 base) (signature_name (ad_name a)) w' = false).
Proof.
  intros st Wf Da M Un Em H.
  destruct (race_threshold b e lim a id base ops A w Wf Da M Un Em H) as (n & Hn & K).
  exists n. split; [exact Hn|]. intros x w'. split; intros Hx.
  - intros b2 e2 id2 schema. apply C30_create_twice; [reflexivity|]. specialize (K x id2).
    rewrite exists_eq in K by reflexivity. apply (f_equal (fun o => match o with Ret v => v | _ => false end)) in K. cbn [fst] in K. etransitivity; [exact K|]. apply Nat.leb_le. exact Hx.
  - intros id2. specialize (K x id2). rewrite exists_eq in K by reflexivity. apply (f_equal (fun o => match o with Ret v => v | _ => false end)) in K. cbn [fst] in K. etransitivity; [exact K|].
    apply Nat.leb_gt. exact Hx.
Qed.
Print Assumptions C74_refused_partial.

(** ** But the check and the creation are two steps: a second process that
    looked before and writes when the builder is done succeeds, too.  If both use
    the same schema, the files are as before; if not, the archive can not be
    opened any more, although all calls of both returned success. *)
Theorem C74_both_refuted b e lim a id base ops A w : let st := FileStorage id base in
  wf_archive true a -> dirs_apart a -> maps_ok w -> unused_storage st w -> empty_place st w ->
  history true a no_plan ops A ->
  exists s w2 n, build_session b e lim a st ops w = (Ret (Ok (repeat true (length ops), s)), w2) /\ (1 <= n)%nat /\
  forall x b2 e2 id2 schema, (calls_done x < n)%nat ->
  exists w3, create_between b2 e2 id2 base (ad_name a) schema (world_at (build_session b e lim a st ops) w x) w2 = (Ret (Ok tt), w3) /\
    (schema = ad_schema a -> forall k, w_files w3 k = w_files w2 k) /\
    (schema <> ad_schema a -> schema_ok st schema -> forall b' e',
       fresh_open b' e' a base w3 = Ret (Er (EWrongSignature (signature_name (ad_name a))))).
Proof.
  intros st Wf Da M Un Em H.
  destruct (race_threshold b e lim a id base ops A w Wf Da M Un Em H) as (n & Hn & K).
  destruct (race_lost b e lim a id base ops A w Wf Da M Un Em H) as (s & w2 & R & L).
  exists s, w2, n. split; [exact R|]. split; [apply Hn|]. intros x b2 e2 id2 schema Hx.
  apply L. rewrite K. f_equal. apply Nat.leb_gt. exact Hx.
Qed.
Print Assumptions C74_both_refuted.

(** The second process looks before the builder's first call and after its
    third; it writes when the archive is built. *)
Definition r_create b e (schema : list Z) (x : moment) :=
  create_between b e 7 "/d" (ad_name ex_Arch) schema (world_at (d_run b e) ex_w x) (world_at (d_run b e) ex_w (At 1000 0)).
Definition r_seen b e (schema : list Z) (x : moment) :=
  (fst (r_create b e schema x), omap (fun r => match r with Ok _ => Ok tt | Er y => Er y end) (fresh_open b e ex_Arch "/d" (snd (r_create b e schema x)))).
Example C74_example : forall b e,
  wf_archive true ex_Arch /\ dirs_apart ex_Arch /\ maps_ok ex_w /\ unused_storage ex_fs ex_w /\ empty_place ex_fs ex_w /\
  (exists A, history true ex_Arch no_plan d_ops A) /\ [65] <> ad_schema ex_Arch /\ schema_ok ex_fs [65] /\
  r_seen b e [65] (At 4 0) = (Ret (Er (EIo KAlreadyExists "Arch.archive")), Ret (Ok tt)) /\
  r_seen b e [65] (At 3 5) = (Ret (Ok tt), Ret (Er (EWrongSignature "Arch.archive"))) /\
  r_seen b e (ad_schema ex_Arch) (At 0 0) = (Ret (Ok tt), Ret (Ok tt)).
Proof.
  intros b e. split; [apply ex_Arch_wf|]. split; [apply ex_apart|]. split; [apply ex_maps|].
  split; [split; [simpl; lia|simpl; auto]|]. split; [apply ex_empty|]. split; [destruct d_history as (A & H & _); eauto|].
  split; [vm_compute; discriminate|]. split; [schema_solve|]. destruct b, e; vm_compute; repeat split.
Qed.
