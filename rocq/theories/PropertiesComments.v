(** What the comparison of Vorbis comments in tests/testsamples.rs finds out.

    [file_at] (SpecPrograms.v), [well_formed] (SpecFile.v): the contents of a file; its streaminfo
    and Vorbis comment.  [printed vendor cs out] (SpecComments.v): [out] is what [metaflac]
    prints for this vendor string and these comments.  [Panic] is a test that fails.  [bare]: a
    detail of [str::lines] that depends on the version of Rust. *)
From Verif Require Import SpecComments ProofTests ProofComments PropertiesMeta PropertiesPrograms.
From Verif Require Import SpecReader.

(** * C84: the test that compares Vorbis comments with [metaflac] *)

(** If [metaflac] prints what is in the file, the test passes: for values of any number of
    lines, but the vendor string must be on one line (a [vendor_in_c] is nothing if there is a null
    byte at its start), and in newer versions of Rust values must not end in a carriage return. *)
Theorem C84_passes : forall m un, (forall n, length (un n) = n) ->
  forall fuel bare fs path t w rest si vendor cs out, file_at fs path t (w ++ rest) ->
  (length (w ++ rest) < fuel)%nat -> well_formed si (Some (vorbis_of vendor cs)) w ->
  printed (vendor_in_c vendor) cs out -> one_line (vendor_in_c vendor) ->
  (bare = true -> Forall (fun c => ~ ends_with 13 (snd c)) cs) ->
  compare_metaflac_vorbis_comment m un fuel bare fs path out = Ok tt.
Proof. exact comments_pass. Qed.
(** For values on one line, the test passes exactly if the vendor is the one that is printed
    and the comments start with those that are printed. *)
Theorem C84_compares : forall m un, (forall n, length (un n) = n) ->
  forall fuel bare fs path t w rest si vendor cs vendor' cs' out, file_at fs path t (w ++ rest) ->
  (length (w ++ rest) < fuel)%nat -> well_formed si (Some (vorbis_of vendor cs)) w ->
  printed vendor' cs' out -> utf8 vendor' -> Forall comment_ok cs' -> one_line vendor' ->
  Forall (fun c => one_line (snd c)) cs -> Forall (fun c => one_line (snd c)) cs' ->
  (compare_metaflac_vorbis_comment m un fuel bare fs path out = Ok tt
   /\ vendor' = vendor_in_c vendor /\ exists more, cs = cs' ++ more)
  \/ ((exists why, compare_metaflac_vorbis_comment m un fuel bare fs path out = Panic why)
      /\ ~ (vendor' = vendor_in_c vendor /\ exists more, cs = cs' ++ more)).
Proof. exact comments_compared. Qed.
(** Values on any number of lines, if no carriage returns and no lines that look like a
    comment are in them: it passes exactly if the vendor is the one that is printed, and the first
    comments of the file agree with the printed ones line by line, where the printed
    values may go on ([comments_listed]). *)
Theorem C84_exactly : forall m un, (forall n, length (un n) = n) ->
  forall fuel bare fs path t w rest si vendor cs vendor' cs' out, file_at fs path t (w ++ rest) ->
  (length (w ++ rest) < fuel)%nat -> well_formed si (Some (vorbis_of vendor cs)) w ->
  printed vendor' cs' out -> utf8 vendor' -> Forall comment_ok cs' -> one_line vendor' ->
  Forall (fun c => plain_value (snd c)) cs -> Forall (fun c => plain_value (snd c)) cs' ->
  (compare_metaflac_vorbis_comment m un fuel bare fs path out = Ok tt
   /\ vendor' = vendor_in_c vendor /\ comments_listed cs cs')
  \/ ((exists why, compare_metaflac_vorbis_comment m un fuel bare fs path out = Panic why)
      /\ ~ (vendor' = vendor_in_c vendor /\ comments_listed cs cs')).
Proof. exact comments_exactly. Qed.
(** With carriage returns too: the test fails if lines of the last listed value are missing in
    the listing. *)
Theorem C84_cut : forall m un, (forall n, length (un n) = n) ->
  forall fuel bare fs path t w rest si vendor cs n v x more out, file_at fs path t (w ++ rest) ->
  (length (w ++ rest) < fuel)%nat ->
  well_formed si (Some (vorbis_of vendor (cs ++ (n, v ++ [10] ++ x) :: more))) w -> x <> [] ->
  printed (vendor_in_c vendor) (cs ++ [(n, v)]) out -> utf8 v -> one_line (vendor_in_c vendor) ->
  (bare = true -> Forall (fun c => ~ ends_with 13 (snd c)) cs) ->
  exists why, compare_metaflac_vorbis_comment m un fuel bare fs path out = Panic why.
Proof. exact comments_cut. Qed.
(** But if the listing has further lines of a value that the crate does not report, it
    passes, unless one of them looks like a comment. *)
Theorem C84_overlooks : forall m un, (forall n, length (un n) = n) ->
  forall fuel bare fs path t w rest si vendor cs n v x more out, file_at fs path t (w ++ rest) ->
  (length (w ++ rest) < fuel)%nat -> well_formed si (Some (vorbis_of vendor (cs ++ (n, v) :: more))) w ->
  (forall a b, 10 :: x <> a ++ [10] ++ text "    comment[" ++ b) ->
  printed (vendor_in_c vendor) (cs ++ (n, v ++ [10] ++ x) :: more) out -> one_line (vendor_in_c vendor) ->
  (bare = true -> Forall (fun c => ~ ends_with 13 (snd c)) (cs ++ (n, v) :: more)) ->
  compare_metaflac_vorbis_comment m un fuel bare fs path out = Ok tt.
Proof. exact comments_overlooked. Qed.
(** Files without comments, and files that do not open. *)
Theorem C84_without : forall m un, (forall n, length (un n) = n) ->
  forall fuel bare fs path t w rest si, file_at fs path t (w ++ rest) ->
  (length (w ++ rest) < fuel)%nat -> well_formed si None w ->
  compare_metaflac_vorbis_comment m un fuel bare fs path [] = Ok tt
  /\ forall vendor' cs' out, printed vendor' cs' out -> utf8 vendor' -> one_line vendor' ->
     exists why, compare_metaflac_vorbis_comment m un fuel bare fs path out = Panic why.
Proof. exact comments_without. Qed.
Theorem C84_unopened : forall m un, (forall n, length (un n) = n) ->
  forall fuel bare fs path t l out, file_at fs path t l -> (length l < fuel)%nat ->
  (exists si vc w rest, l = w ++ rest /\ well_formed si vc w)
  \/ exists why e, compare_metaflac_vorbis_comment m un fuel bare fs path out = Panic why /\ file_unopened t l e.
Proof. exact comments_unopened. Qed.

(** * Examples: the hypotheses are met *)

(** A value on three lines, and an empty one. *)
Definition talk_comments : list comment := [([65], [120; 10; 10; 121]); ([66], [])].
Definition talk_body : list Z := comments_bytes [86] (map Some talk_comments).
Definition talk_file : list Z :=
  signature ++ ([0; 0; 0; 34] ++ info_bytes) ++ [132] ++ be_bytes 3 (len talk_body) ++ talk_body.
Definition talk_files : file_system := fun path =>
  if list_eq_dec Z.eq_dec path program_path then inr [EvData talk_file] else inl (OtherIo 2).
Definition talk_front : list Z :=
  text "METADATA block #1" ++ [10] ++ text "  type: 4 (VORBIS_COMMENT)" ++ [10].
Definition talk_printed : list Z :=
  talk_front ++ text "  vendor string: V" ++ [10] ++ text "  comments: 2" ++ [10]
  ++ text "    comment[0]: A=x" ++ [10; 10] ++ text "y" ++ [10] ++ text "    comment[1]: B=" ++ [10].

Example C84_example : file_at talk_files program_path TEof (talk_file ++ [])
  /\ well_formed info (Some (vorbis_of [86] talk_comments)) talk_file
  /\ printed (vendor_in_c [86]) talk_comments talk_printed /\ one_line (vendor_in_c [86])
  /\ Forall (fun c => ~ ends_with 13 (snd c)) talk_comments.
Proof.
  split; [|split; [|split; [|split]]].
  - rewrite app_nil_r. exists [EvData talk_file]. split; [reflexivity|]. rewrite <- (app_nil_r talk_file) at 2. apply delivers_chunk; [|constructor; reflexivity].
    split; [apply bytes_check; vm_compute; reflexivity|vm_compute; split; congruence].
  - eexists [MbVorbisComment (vorbis_of [86] talk_comments)], _. split; [reflexivity|]. split; [|split].
    + apply blocks_more; [exact (info_block false)|]. apply blocks_last.
      exists 4, talk_body. split; [|split; reflexivity].
      apply (body_comments [86] (map Some talk_comments)); [exists [86]; split; [repeat constructor; unfold scalar; lia|reflexivity]| |vm_compute; discriminate].
      repeat constructor; cbn [fst snd]; try lia.
      * exists [120; 10; 10; 121]. split; [repeat constructor; unfold scalar; lia|reflexivity].
      * exists []. split; [constructor|reflexivity].
    + repeat constructor; intros ? ?; discriminate.
    + apply (comment_one [] []); repeat constructor.
  - assert (forall l, forallb (fun b => negb (b =? 10)) l = true -> ~ In 10 l) as H.
    { intros l Hl Hi. rewrite forallb_forall in Hl. apply Hl in Hi. discriminate. }
    exists [text "METADATA block #1"; text "  type: 4 (VORBIS_COMMENT)"], [50]. eexists. split; [|split; [|split; [|reflexivity]]].
    + constructor; [split; [apply H; reflexivity|discriminate]|]. constructor; [split; [apply H; reflexivity|discriminate]|constructor].
    + split; [discriminate|]. split; [repeat constructor; lia|reflexivity].
    + apply (printed_comment 0 [48] ([65], [120; 10; 10; 121]) [([66], [])]
        (text "    comment[1]: B=" ++ [10])); [split; [discriminate|]; split; [repeat constructor; lia|reflexivity]|].
      apply (printed_comment 1 [49] ([66], []) [] []); [split; [discriminate|]; split; [repeat constructor; lia|reflexivity]|]. apply printed_none.
  - split; [cbn; intuition discriminate|]. intros [l E]. apply (app_inj_tail [] l) in E as [_ E]. discriminate.
  - constructor; [|constructor; [|constructor]]; intros [l E]; cbn [snd] in E.
    + apply (app_inj_tail [120; 10; 10] l) in E as [_ E]. discriminate.
    + destruct l; discriminate.
Qed.
(** The test passes; it does not notice a comment more in the file. It notices another vendor,
    another value, or lines of a value that are missing. *)
Example C84_run : let test out := compare_metaflac_vorbis_comment Debug (repeat 7) 1000 true talk_files program_path out in
  let front := talk_front ++ text "  vendor string: V" ++ [10] ++ text "  comments: 2" ++ [10] in
  test talk_printed = Ok tt /\ test front = Ok tt
  /\ (exists why, test (text "  vendor string: W" ++ [10]) = Panic why)
  /\ (exists why, test (front ++ text "    comment[0]: A=y" ++ [10]) = Panic why)
  /\ (exists why, test (front ++ text "    comment[0]: A=x" ++ [10]) = Panic why).
Proof. vm_compute. repeat split; eauto. Qed.
(** A value cut after its second line, and one with two lines that the file does not have. *)
Lemma printed_lines vendor cs w : comments_printed 0 cs w -> len cs <= 9 ->
  printed vendor cs (text "  vendor string: " ++ vendor ++ [10] ++ text "  comments: " ++ [48 + len cs] ++ [10] ++ w).
Proof.
  intros H Hl. exists [], [48 + len cs], w. split; [constructor|]. split; [|split; [exact H|reflexivity]].
  pose proof (len_nonneg cs). split; [discriminate|]. split; [constructor; [lia|constructor]|cbn [digits_value]; lia].
Qed.
Example C84_lines_example :
  talk_comments = [] ++ ([65], [120; 10] ++ [10] ++ [121]) :: [([66], [])]
  /\ (exists out, printed (vendor_in_c [86]) ([] ++ [([65], [120; 10])]) out)
  /\ (exists out, printed (vendor_in_c [86]) (([65], [120; 10; 10; 121]) :: ([66], [] ++ [10] ++ [122; 10; 122]) :: []) out)
  /\ (forall a b, 10 :: [122; 10; 122] <> a ++ [10] ++ text "    comment[" ++ b).
Proof.
  split; [reflexivity|]. split; [|split].
  - eexists. apply printed_lines; [|cbn; lia].
    apply (printed_comment 0 [48] _ [] []); [split; [discriminate|]; split; [repeat constructor; lia|reflexivity]|]. apply printed_none.
  - eexists. apply printed_lines; [|cbn; lia].
    apply (printed_comment 0 [48]); [split; [discriminate|]; split; [repeat constructor; lia|reflexivity]|].
    apply (printed_comment 1 [49] _ [] []); [split; [discriminate|]; split; [repeat constructor; lia|reflexivity]|]. apply printed_none.
  - intros a b E. apply (f_equal (@length Z)) in E. rewrite !app_length in E. vm_compute (length (text _)) in E. cbn [length] in E. lia.
Qed.
Example C84_exactly_example : Forall (fun c => plain_value (snd c)) talk_comments
  /\ value_listed [120; 10; 10; 121] [120; 10; 10; 121; 10; 122] /\ ~ value_listed [120; 10; 10; 121] [120; 10; 10].
Proof.
  assert (forall v, forallb (fun b => negb (b =? 13)) v = true -> (length v <= 12)%nat -> plain_value v) as H.
  { intros v Hc Hl. split.
    - intros Hi. rewrite forallb_forall in Hc. apply Hc in Hi. discriminate.
    - intros a b E. apply (f_equal (@length Z)) in E. rewrite !app_length in E. vm_compute (length (text _)) in E. cbn [length] in E. lia. }
  split; [repeat constructor; apply H; cbn; solve [reflexivity|lia]|]. split.
  - exists [120; 10; 10; 121], [122; 10]. auto.
  - intros (v0 & x & [<-|E] & E0); [apply (f_equal (@length Z)) in E0; cbn in E0; lia|].
    apply (app_inj_tail [120; 10; 10] v0) in E as [_ E]. discriminate.
Qed.

(** Two files that the same lines about comments are right for. *)
Example C84_ambiguous : exists w,
  comments_printed 0 [([65], [120] ++ [10] ++ text "    comment[1]: B=")] w
  /\ comments_printed 0 [([65], [120]); ([66], [])] w.
Proof.
  eexists. split.
  - apply (printed_comment 0 [48]); [split; [discriminate|]; split; [repeat constructor; lia|reflexivity]|]. apply printed_none.
  - apply (printed_comment 0 [48] ([65], [120]) _ _); [split; [discriminate|]; split; [repeat constructor; lia|reflexivity]|].
    apply (printed_comment 1 [49] ([66], []) [] []); [split; [discriminate|]; split; [repeat constructor; lia|reflexivity]|]. apply printed_none.
Qed.

Print Assumptions C84_passes.
Print Assumptions C84_compares.
Print Assumptions C84_exactly.
Print Assumptions C84_cut.
Print Assumptions C84_overlooks.
Print Assumptions C84_without.
Print Assumptions C84_unopened.
