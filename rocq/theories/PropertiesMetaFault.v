(** Properties of the errors that reading metadata and opening report.

    [stream rb t D] (SpecReader.v): [rb] reads the bytes [l] in state [st] if [D st l]
    and then meets the end or an error [t] of the source.  [content_fault ty n e w],
    [block_fault e w], [open_fault opts e w] (SpecMetaFault.v): something is wrong in the
    last field of [w], for the reason that the error [e] states; before it all is well. *)
From Verif Require Import SpecMetaFault ProofMetaFault4 PropertiesMeta.
From Verif Require Import SpecReader.

Section ForAllReaders.
Context {S : Type} (rb : ReadBytes S) (t : tail) (D : S -> list Z -> Prop).
Context (m : build) (un : nat -> list Z).
Notation memory := (forall n, length (un n) = n).

(** * C63: errors of metadata tell what is wrong *)

(** The contents of one block ([read_metadata_block]): every fault is reported, with the
    message for it, and the reader stands behind the faulty field. *)
Theorem C63_content_reported : stream rb t D -> memory -> forall st ty n e w rest,
  0 <= n < 2 ^ 32 -> content_fault ty n e w -> D st (w ++ rest) ->
  exists st', read_metadata_block rb m un ty n st = (Err e, st') /\ D st' rest.
Proof. exact (fun HS Hun => content_reports rb t D HS m un Hun). Qed.
(** All results: a block, a fault, or the error of a source that does not deliver the
    announced number of bytes. *)
Theorem C63_content_cases : stream rb t D -> memory -> forall st ty n l,
  0 <= ty <= 127 -> 0 <= n < 2 ^ 32 -> D st l ->
  match read_metadata_block rb m un ty n st with
  | (Ok b, st') => exists w rest, l = w ++ rest /\ len w = n /\ body_code ty w b /\ D st' rest
  | (Err e, st') => (exists w rest, l = w ++ rest /\ content_fault ty n e w /\ D st' rest)
      \/ (e = tail_error t /\ len l < n)
  | _ => False
  end.
Proof. exact (fun HS Hun => content_cases rb t D HS m un Hun). Qed.

(** The same with the header ([read_metadata_block_with_header]). *)
Theorem C63_block_reported : stream rb t D -> memory -> forall st e w rest,
  block_fault e w -> D st (w ++ rest) ->
  exists st', read_metadata_block_with_header rb m un st = (Err e, st') /\ D st' rest.
Proof. exact (fun HS Hun => block_reports rb t D HS m un Hun). Qed.
Theorem C63_block_cases : stream rb t D -> memory -> forall st l, D st l ->
  match read_metadata_block_with_header rb m un st with
  | (Ok b, st') => exists last w rest, l = w ++ rest /\ block_code last b w /\ D st' rest
  | (Err e, st') => (exists w rest, l = w ++ rest /\ block_fault e w /\ D st' rest)
      \/ (e = tail_error t /\ cut_short l)
  | _ => False
  end.
Proof. exact (fun HS Hun => block_cases rb t D HS m un Hun). Qed.

(** The iterator [MetadataBlockReader]: any number of calls of [next]. *)
Theorem C63_iterator : stream rb t D -> memory -> forall st l, D st l ->
  exists items, diagnosed_items (tail_error t) l items
    /\ forall n, fst (history_all (fun _ : unit => mr_next rb m un) (repeat tt n) (mr_new st))
         = firstn n (map (fun x => Ok (Some x)) items ++ repeat (Ok None) n).
Proof. exact (fun HS Hun => iterator_diagnosed rb t D HS m un Hun). Qed.

(** Opening, with any options. *)
Theorem C63_open_reported : stream rb t D -> memory -> forall fuel opts st e w rest,
  open_fault opts e w -> D st (w ++ rest) -> (length (w ++ rest) < fuel)%nat ->
  exists st', new_ext rb m un fuel opts st = (Err e, st') /\ D st' rest.
Proof. exact (fun HS Hun => open_reports rb t D HS m un Hun). Qed.
Theorem C63_open_cases : stream rb t D -> memory -> forall fuel opts st l,
  D st l -> (length l < fuel)%nat ->
  match new_ext rb m un fuel opts st with
  | (Ok r, _) => exists w rest inp, l = w ++ rest
      /\ opens opts (fr_get_streaminfo r) (fr_vorbis_comment r) w /\ D inp rest
      /\ fr_input r = (if metadata_only opts then MetadataOnly inp else Full inp)
  | (Err e, st') => (exists w rest, l = w ++ rest /\ open_fault opts e w /\ D st' rest)
      \/ (e = tail_error t /\ open_cut opts l)
  | _ => False
  end.
Proof. exact (fun HS Hun => open_cases rb t D HS m un Hun). Qed.
End ForAllReaders.

(** [FlacReader::new_ext] on a source that delivers the bytes in any chunks. *)
Theorem C63_new_ext_reported : forall t m un fuel script e w rest opts, (forall n, length (un n) = n) ->
  open_fault opts e w -> delivers t script (w ++ rest) -> (length (w ++ rest) < fuel)%nat ->
  flac_new_ext m un fuel script opts = Err e.
Proof. exact flac_open_reports. Qed.
Theorem C63_new_ext_cases : forall t m un fuel script l opts, (forall n, length (un n) = n) ->
  delivers t script l -> (length l < fuel)%nat ->
  match flac_new_ext m un fuel script opts with
  | Ok r => exists w rest inp, l = w ++ rest
      /\ opens opts (fr_get_streaminfo r) (fr_vorbis_comment r) w /\ buffered t inp rest
      /\ fr_input r = (if metadata_only opts then MetadataOnly inp else Full inp)
  | Err e => (exists w rest, l = w ++ rest /\ open_fault opts e w) \/ (e = tail_error t /\ open_cut opts l)
  | _ => False
  end.
Proof. exact flac_open_cases. Qed.

(** The fault is unique, and there is none in what opens. *)
Theorem C63_one_fault : forall opts e w rest e' w' rest',
  bytes_ok (w ++ rest) -> open_fault opts e w -> open_fault opts e' w' -> w ++ rest = w' ++ rest' ->
  e = e' /\ w = w' /\ rest = rest'.
Proof. exact open_fault_unique. Qed.
Theorem C63_fault_or_open : forall opts e w rest si vc w' rest',
  bytes_ok (w ++ rest) -> open_fault opts e w -> opens opts si vc w' -> w ++ rest <> w' ++ rest'.
Proof. exact open_fault_not_opens. Qed.
Theorem C63_one_block_fault : forall e w rest e' w' rest',
  bytes_ok (w ++ rest) -> block_fault e w -> block_fault e' w' -> w ++ rest = w' ++ rest' ->
  e = e' /\ w = w' /\ rest = rest'.
Proof. exact block_fault_unique. Qed.
Theorem C63_fault_or_block : forall last b w rest e w' rest',
  bytes_ok (w ++ rest) -> block_code last b w -> block_fault e w' -> w ++ rest <> w' ++ rest'.
Proof. exact block_not_fault. Qed.

(** * Examples: the hypotheses are met *)

Example C63_content_example :
  (* a vendor string that is longer than the block *)
  content_fault 4 8 (FormatError "vendor string too long") [1; 0; 0; 0]
  (* 2 comments announced, 1 present; bytes after the announced comments *)
  /\ content_fault 4 15 (FormatError "Vorbis comment block contains wrong number of entries")
       ([0; 0; 0; 0; 2; 0; 0; 0] ++ [3; 0; 0; 0; 65; 61; 66])
  /\ content_fault 4 17 (FormatError "Vorbis comment block has excess data")
       ([0; 0; 0; 0; 1; 0; 0; 0] ++ [3; 0; 0; 0; 65; 61; 66])
  (* a comment without '=' *)
  /\ content_fault 4 14 (FormatError "Vorbis comment does not contain '='")
       ([0; 0; 0; 0; 1; 0; 0; 0] ++ [2; 0; 0; 0; 65; 66])
  (* a value that is not UTF-8 *)
  /\ content_fault 4 15 (FormatError "Vorbis comment or vendor string is not valid UTF-8")
       ([0; 0; 0; 0; 1; 0; 0; 0] ++ [3; 0; 0; 0; 65; 61; 255])
  /\ content_fault 2 3 (FormatError "application block length must be at least 4 bytes") []
  /\ content_fault 127 9 (FormatError "invalid metadata block type") [].
Proof.
  assert (utf8 []) as Hnil by (exists []; split; [constructor|reflexivity]).
  assert (entry_ok (Some ([65], [66]))) as Hone.
  { repeat constructor; cbn [fst snd]; try lia. exists [66]. split; [repeat constructor; unfold scalar; lia|reflexivity]. }
  split; [|split; [|split; [|split; [|split; [|split]]]]].
  - apply fault_comments; [reflexivity|]. apply (fault_vendor_long 8 1); unfold MiB10; lia.
  - apply fault_comments; [reflexivity|].
    apply (fault_missing 15 [] 2 [Some ([65], [66])]); [unfold MiB10; lia|exact Hnil|cbn; lia|constructor; [exact Hone|constructor]|cbn; lia|reflexivity].
  - apply fault_comments; [reflexivity|].
    apply (fault_excess 17 [] 1 [Some ([65], [66])]);
      [unfold MiB10; lia|exact Hnil|cbn; lia|constructor; [exact Hone|constructor]|cbn; lia|].
    cbv zeta. split; [vm_compute; reflexivity|]. right. reflexivity.
  - apply fault_comments; [reflexivity|].
    apply (fault_comment 14 [] 1 [] _ [2; 0; 0; 0; 65; 66]);
      [unfold MiB10; lia|exact Hnil|cbn; lia|constructor|cbn; lia|vm_compute; discriminate|].
    apply (fault_comment_equals _ [65; 66]); [discriminate|vm_compute; discriminate|repeat constructor; lia].
  - apply fault_comments; [reflexivity|].
    apply (fault_comment 15 [] 1 [] _ [3; 0; 0; 0; 65; 61; 255]);
      [unfold MiB10; lia|exact Hnil|cbn; lia|constructor|cbn; lia|vm_compute; discriminate|].
    apply (fault_comment_utf8 _ ([65], [255])); [vm_compute; discriminate|repeat constructor; lia|repeat constructor; unfold printable; lia|].
    cbn [snd]. intros H. apply utf8_valid_ok in H. vm_compute in H. discriminate.
  - apply fault_application_short; [reflexivity|lia].
  - apply fault_type. reflexivity.
Qed.

(** A file that starts with an ID3 tag, one with two streaminfo blocks, and one with two
    comment blocks. *)
Definition first_blocks : list Z := firstn (length example_data - 4) example_data.
Lemma first_blocks_open : open_blocks (MbStreamInfo info :: [MbReserved; example_comments]) first_blocks.
Proof.
  change first_blocks with (([0] ++ [0; 0; 34] ++ info_bytes) ++ ([9] ++ be_bytes 3 2 ++ [255; 255])
    ++ ([4] ++ be_bytes 3 (len (comments_bytes example_vendor example_entries)) ++ comments_bytes example_vendor example_entries) ++ []).
  constructor; [exact (info_block false)|]. constructor.
  { exists 9, [255; 255]. split; [constructor; [lia|repeat constructor; unfold is_byte; lia]|]. split; reflexivity. }
  constructor; [exact (example_block false)|]. constructor.
Qed.
Example C63_open_example :
  open_fault default_options (FormatError "stream starts with ID3 header rather than FLAC header") [73; 68; 51; 4]
  /\ open_fault default_options (FormatError "encountered second streaminfo block")
       (signature ++ first_blocks ++ ([0] ++ [0; 0; 34] ++ info_bytes))
  /\ open_fault default_options (FormatError "encountered second Vorbis comment block")
       (signature ++ first_blocks ++ ([132] ++ be_bytes 3 (len (comments_bytes example_vendor example_entries))
                                          ++ comments_bytes example_vendor example_entries))
  /\ open_fault default_options (FormatError "invalid metadata block type") (signature ++ first_blocks ++ [255; 0; 0; 7])
  (* with metadata_only nothing is read behind the comments *)
  /\ opens (mkOpts true true) info (Some (vorbis_of example_vendor (present example_entries))) (signature ++ first_blocks).
Proof.
  assert (only_comment [MbReserved; example_comments] (Some (vorbis_of example_vendor (present example_entries)))) as Hc
    by (apply (comment_one [MbReserved] []); repeat constructor; intros ? ?; discriminate).
  assert (Forall not_streaminfo [MbReserved; example_comments]) as Hn by (repeat constructor; intros ? ?; discriminate).
  split; [|split; [|split; [|split]]].
  - constructor.
  - eapply fault_second_streaminfo; [exact first_blocks_open|split; [exact Hn|eexists; exact Hc]|exact (info_block false)].
  - eapply fault_second_comment; [reflexivity|exact first_blocks_open|exact Hn|exact Hc|exact (example_block true)].
  - eapply fault_later_block; [exact first_blocks_open|split; [exact Hn|eexists; exact Hc]|].
    exists true, 127, 7, []. split; [lia|]. split; [lia|]. split; [apply fault_type; reflexivity|reflexivity].
  - exists [MbReserved], ([0; 0; 0; 34] ++ info_bytes ++ [9; 0; 0; 2; 255; 255]), false.
    eexists. split; [reflexivity|]. split; [|split; [exact (example_block false)|split; repeat constructor; intros ? ?; discriminate]].
    change ([0; 0; 0; 34] ++ info_bytes ++ [9; 0; 0; 2; 255; 255]) with (([0] ++ [0; 0; 34] ++ info_bytes) ++ ([9] ++ be_bytes 3 2 ++ [255; 255]) ++ []).
    constructor; [exact (info_block false)|]. constructor; [|constructor].
    exists 9, [255; 255]. split; [constructor; [lia|repeat constructor; unfold is_byte; lia]|]. split; reflexivity.
Qed.
Example C63_new_ext_example :
  flac_new_ext Release (repeat 7) 300%nat
    [EvData [102; 76]; EvData (skipn 2 (signature ++ first_blocks) ++ [0; 0; 0]); EvData (34 :: info_bytes ++ [1; 2; 3])] default_options
  = Err (FormatError "encountered second streaminfo block")
  /\ flac_new_ext Release (repeat 7) 300%nat [EvData (signature ++ firstn 40 first_blocks)] default_options = Err (tail_error TEof).
Proof. vm_compute. split; reflexivity. Qed.

Print Assumptions C63_content_reported.
Print Assumptions C63_content_cases.
Print Assumptions C63_block_reported.
Print Assumptions C63_block_cases.
Print Assumptions C63_iterator.
Print Assumptions C63_open_reported.
Print Assumptions C63_open_cases.
Print Assumptions C63_new_ext_reported.
Print Assumptions C63_new_ext_cases.
Print Assumptions C63_one_fault.
Print Assumptions C63_fault_or_open.
Print Assumptions C63_one_block_fault.
Print Assumptions C63_fault_or_block.
