(** Property C101: texts of errors.  Vocabulary: ErrorTextSpec.v, DiffSpec.v
    ([script]: an edit script; [shown]: what a diff shows of its sides). *)
From Verif Require Import Base Codec Storage StorageSpec StorageMore PropsStorage Diff DiffSpec DiffFacts ErrorSpec ErrorFacts ErrorText ErrorTextSpec ErrorTextFacts.
Local Open Scope list_scope.
Local Open Scope Z_scope.

(** Different errors have different texts, in every version of the standard library,
    whatever the names, diffs and the texts of inner errors are. *)
Theorem C101_unambiguous v x y : error_chars x -> error_chars y -> display_text v x = display_text v y -> x = y.
Proof. exact (text_inj v x y). Qed.
Print Assumptions C101_unambiguous.

(** The text of an error is one line, ... *)
Theorem C101_one_line v x : error_chars x -> std_lines x -> one_line (display_text v x).
Proof. exact (text_line v x). Qed.
Print Assumptions C101_one_line.

(** ... so that a diff, which has several lines, is never shown as such. *)
Theorem C101_diff_refuted v n l r es : chars n -> chars l -> chars r -> script l r es -> (1 < List.length es)%nat ->
  ~ contains (display_text v (WrongSignature n (compute_diff es))) (compute_diff es).
Proof.
  intros Hn Hl Hr S L. apply text_hides; [exact Hn|eapply diff_chars; eauto|].
  destruct es as [|x [|y es]]; cbn in L; try lia. unfold compute_diff. cbn [map].
  change (join_lines (edit_line x :: edit_line y :: map edit_line es)) with (edit_line x ++ 10 :: join_lines (edit_line y :: map edit_line es)).
  apply in_or_app. right. left. reflexivity.
Qed.
Print Assumptions C101_diff_refuted.

(** But nothing is lost: both schemas can be read off the text. *)
Theorem C101_schemas v b e st name expected w n w' : maps_ok w -> chars expected ->
  read b e st name expected w = (Ret (Er (EWrongSignature n)), w') ->
  exists stored, finds st w (schema_name name) (Some stored) /\ (chars stored ->
    forall es n' d', script stored expected es -> chars (str name) -> chars n' -> chars d' ->
      display_text v (WrongSignature (str name) (compute_diff es)) = display_text v (WrongSignature n' d') ->
      n' = str name /\ join_lines (shown 45 d') = stored /\ join_lines (shown 43 d') = expected).
Proof.
  intros M He R. destruct (wrong_signature_found b e st name expected w n w' M R) as (_ & sc & F & _). exists sc. split; [exact F|].
  intros Hs es n' d' S Hn Hn' Hd' E. apply text_inj in E; [|split; [exact Hn|eapply diff_chars; eauto]|split; assumption].
  injection E as <- <-. destruct (diff_shows sc expected es S) as (A & B & _). auto.
Qed.
Print Assumptions C101_schemas.

(** The text names the resource the error is about; names of letters, digits and the
    like are shown as they are. *)
Theorem C101_name v x y n : stands_for x y -> error_names x = Some n -> plain (str n) ->
  contains (display_text v y) ([34] ++ str n ++ [34]).
Proof.
  intros S E P. assert (Q := plain_quoted v (str n) P). cbn [app]. rewrite <- Q. unfold display_text.
  destruct x as [k m| |m|m|]; cbn in E; try discriminate E; injection E as <-; destruct y as [e1 n1|e1|n1|n1 d1|]; cbn in S; try contradiction;
    subst n1; cbn [debug_text].
  - exists (str "Io(" ++ e1 ++ str ", "), (str ")"). rewrite <- !app_assoc. reflexivity.
  - exists (str "MissingSchema("), (str ")"). reflexivity.
  - exists (str "WrongSignature { resource_name: "), (str ", diff: " ++ quoted v d1 ++ str " }"). reflexivity.
Qed.
Print Assumptions C101_name.

(** ** Examples *)
(** A field was renamed; a name with quotes, a line feed, the characters 127 and 228. *)
Definition et_std := mkStd false true (fun c => 160 <? c).
Definition et_edits := [Both (str "struct A {") (str "struct A {"); Left (str "  x : u8;"); Right (str "  y : u8;"); Both (str "}") (str "}")].
Example C101_example :
  display_text et_std (WrongSignature (str "r") (compute_diff et_edits)) =
    str "WrongSignature { resource_name: ""r"", diff: "" struct A {\n-  x : u8;\n+  y : u8;\n }"" }" /\
  script (join_lines (left_lines et_edits)) (join_lines (right_lines et_edits)) et_edits /\
  display_text et_std (Io (str "Kind(NotFound)") (str "a""\" ++ [10; 127; 228])) =
    str "Io(Kind(NotFound), ""a\""\\\n\u{7f}" ++ [228] ++ str """)" /\
  display_text et_std (Utf8Error (str "Utf8Error { valid_up_to: 0 }")) = str "Utf8Error(Utf8Error { valid_up_to: 0 })" /\
  display_text et_std (MissingSchema (str "it's")) = str "MissingSchema(""it's"")" /\
  display_text et_std UnexpectedDataSize = str "UnexpectedDataSize".
Proof.
  split; [reflexivity|]. split; [|repeat split; reflexivity]. split; [reflexivity|reflexivity|].
  intros x y H. cbn in H. repeat (destruct H as [H|H]; [try discriminate H; injection H as <- <-; reflexivity|]). destruct H.
Qed.
(** The text of an error that read returns. *)
Example C101_read_example :
  let w := put "/d/x" (resource_bytes [7]) (put "/d/x.schema" (str "struct A {
  x : u8;
}") ex_w) in
  fst (read Debug LE ex_fs "x" (str "struct A {
  y : u8;
}") w) = Ret (Er (EWrongSignature "x")) /\ stands_for (EWrongSignature "x") (WrongSignature (str "x") (compute_diff et_edits)) /\ plain (str "x").
Proof. split; [vm_compute; reflexivity|]. split; [reflexivity|]. repeat constructor; vm_compute; congruence. Qed.
