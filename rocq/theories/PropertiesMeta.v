(** Properties of src/metadata.rs, and of opening a file in src/lib.rs.

    As elsewhere the theorems are about any reader [rb] that behaves as a byte
    stream; [D st l] says that in state [st] the bytes [l] are still to come.  [un]
    stands for the contents of uninitialised memory. *)
From Verif Require Import SpecOps SpecMeta SpecFile ProofReader ProofOptions.
From Verif Require Import SpecReader.

Section ForAllReaders.
  Context {S : Type} (rb : ReadBytes S) (t : tail) (D : S -> list Z -> Prop).
  Context (m : build) (un : nat -> list Z).
  Notation memory := (forall n, length (un n) = n).

(** * C40: streaminfo is decoded exactly and validated *)

(** A streaminfo that makes sense is returned, any other is rejected. *)
Theorem C40_validated : stream rb t D -> memory -> forall st si w rest,
  streaminfo_fits si -> streaminfo_code si w -> D st (w ++ rest) ->
  (streaminfo_valid si ->
   exists st', read_metadata_block rb m un 0 34 st = (Ok (MbStreamInfo si), st') /\ D st' rest)
  /\ (~ streaminfo_valid si ->
      exists r, fst (read_metadata_block rb m un 0 34 st) = Err (FormatError r)).
Proof. exact (fun HS Hun => streaminfo_accepted_iff rb t D HS m un Hun). Qed.

(** Every 34 bytes are the encoding of exactly one streaminfo. *)
Theorem C40_all : forall w, length w = 34%nat -> bytes_ok w ->
  exists si, streaminfo_fits si /\ streaminfo_code si w.
Proof. exact streaminfo_total. Qed.
Theorem C40_unique : forall si si' w, streaminfo_fits si -> streaminfo_fits si' ->
  streaminfo_code si w -> streaminfo_code si' w -> si = si'.
Proof. exact streaminfo_code_inj. Qed.

(** Any other length is rejected. *)
Theorem C40_length : forall st n, n <> 34 ->
  exists r, fst (read_metadata_block rb m un 0 n st) = Err (FormatError r).
Proof. exact (streaminfo_length rb m un). Qed.

(** * C41: metadata blocks are framed by their length field *)

(** When a block of type [ty] and length [n] is read, it was well-formed and exactly
    [n] bytes were consumed.  When not, there is no such block. *)
Theorem C41_block : stream rb t D -> memory -> forall st ty n l,
  0 <= ty <= 127 -> 0 <= n < 2 ^ 32 -> D st l ->
  match read_metadata_block rb m un ty n st with
  | (Ok b, st') => exists w rest, l = w ++ rest /\ len w = n /\ body_code ty w b /\ D st' rest
  | (Err _, _) => forall b w rest, l = w ++ rest -> len w = n -> ~ body_code ty w b
  | _ => False
  end.
Proof. exact (fun HS Hun => block_result rb t D HS m un Hun). Qed.

(** Types that do not fit into the 7 bits of a header can be passed, too. *)
Theorem C41_large_types : stream rb t D -> memory -> forall st ty n l,
  128 <= ty -> 0 <= n < 2 ^ 32 -> D st l ->
  match read_metadata_block rb m un ty n st with
  | (Ok b, st') => exists w rest, l = w ++ rest /\ len w = n /\ b = MbReserved /\ D st' rest
  | (Err _, _) => len l < n
  | _ => False
  end.
Proof. exact (fun HS Hun => block_large_type rb t D HS m un Hun). Qed.

(** With the header: [block_code] has one byte for type and flag, three for the
    length, and as many bytes as that says. *)
Theorem C41_with_header : stream rb t D -> memory -> forall st l, D st l ->
  match read_metadata_block_with_header rb m un st with
  | (Ok b, st') => exists last w rest, l = w ++ rest /\ block_code last b w /\ D st' rest
  | (Err _, _) => forall last b w rest, l = w ++ rest -> ~ block_code last b w
  | _ => False
  end.
Proof. exact (fun HS Hun => header_result rb t D HS m un Hun). Qed.

(** Every block is read. *)
Theorem C41_accepted : stream rb t D -> memory -> forall st last b w rest,
  block_code last b w -> D st (w ++ rest) ->
  exists st', read_metadata_block_with_header rb m un st = (Ok b, st') /\ D st' rest.
Proof. exact (fun HS Hun => header_accepts rb t D HS m un Hun). Qed.

(** * C42: the metadata iterator ends after the last block or the first error *)

(** [n] calls of [next] yield the items and then [None]; once the items are used up
    the state does not change any more; the size hint is right at any time. *)
Theorem C42_iterator : stream rb t D -> memory -> forall st l, D st l ->
  exists items, metadata_items l items /\ items <> [] /\ forall n,
  let nexts n := history_all (fun _ : unit => mr_next rb m un) (repeat tt n) (mr_new st) in
  fst (nexts n) = firstn n (map (fun x => Ok (Some x)) items ++ repeat (Ok None) n)
  /\ ((length items <= n)%nat -> snd (nexts n) = snd (nexts (length items)))
  /\ (let remaining := Z.max 0 (len items - Z.of_nat n) in
      fst (mr_size_hint (snd (nexts n))) <= remaining
      /\ match snd (mr_size_hint (snd (nexts n))) with
         | Some u => remaining <= u
         | None => True
         end).
Proof. exact (fun HS Hun => iterator rb t D HS m un Hun). Qed.

(** * C43: Vorbis comments round-trip *)

Theorem C43_round_trip : stream rb t D -> memory -> forall st vendor entries rest,
  utf8 vendor -> Forall entry_ok entries -> len (comments_bytes vendor entries) <= MiB10 ->
  D st (comments_bytes vendor entries ++ rest) ->
  exists st', read_metadata_block rb m un 4 (len (comments_bytes vendor entries)) st
    = (Ok (MbVorbisComment (vorbis_of vendor (present entries))), st') /\ D st' rest.
Proof.
  exact (fun HS Hun st vendor entries rest Hv He Hl HD =>
    block_accepts rb t D HS m un Hun st 4 _ _ rest (body_comments vendor entries Hv He Hl)
      (Z.le_lt_trans _ MiB10 (2 ^ 32) Hl eq_refl) HD).
Qed.

(** * C44: accepted Vorbis comments are well-formed *)

Theorem C44_well_formed : stream rb t D -> memory -> forall st l ty n vc st',
  0 <= ty <= 127 -> 0 <= n < 2 ^ 32 -> D st l ->
  read_metadata_block rb m un ty n st = (Ok (MbVorbisComment vc), st') ->
  utf8 (vc_vendor vc)
  /\ Forall (fun p => utf8 (fst p) /\ exists name value, fst p = name ++ [61] ++ value
       /\ snd p = len name /\ Forall (fun b => 32 <= b <= 125 /\ b <> 61) name) (vc_comments vc).
Proof. exact (fun HS Hun => accepted_comments rb t D HS m un Hun). Qed.

(** * C45: tag lookup is complete, ordered and never panics *)

(** Every reader shows the comments of its Vorbis comment block. *)
Theorem C45_tags : stream rb t D -> memory -> forall fuel opts st l r,
  D st l -> (length l < fuel)%nat -> fst (new_ext rb m un fuel opts st) = Ok r ->
  exists vendor cs, Forall comment_ok cs /\ shows r vendor cs
    /\ match fr_vorbis_comment r with
       | Some vc => exists v, vendor = Some v /\ utf8 v /\ vc = vorbis_of v cs
       | None => vendor = None /\ cs = []
       end.
Proof. exact (fun HS Hun => tags_of_reader rb t D HS m un Hun). Qed.

(** For a file whose Vorbis comment block holds [vendor] and [entries]. *)
Theorem C45_file : stream rb t D -> memory -> forall fuel st si bs bs' vendor entries blocks rest,
  blocks_code (MbStreamInfo si :: bs ++ MbVorbisComment (vorbis_of vendor (present entries)) :: bs') blocks ->
  Forall not_streaminfo (bs ++ bs') -> Forall not_comment (bs ++ bs') -> Forall entry_ok entries ->
  D st (signature ++ blocks ++ rest) -> (length (signature ++ blocks ++ rest) < fuel)%nat ->
  exists r, fst (new_ext rb m un fuel default_options st) = Ok r
    /\ shows r (Some vendor) (present entries).
Proof. exact (fun HS Hun => tags_of_file rb t D HS m un Hun). Qed.

(** The values of a name are determined, and exist. *)
Theorem C45_values : forall name cs, exists vs, values_of name cs vs
  /\ forall vs', values_of name cs vs' -> vs' = vs.
Proof. exact values_defined. Qed.

(** * C47: FlacReader::new accepts exactly well-formed stream headers *)

Theorem C47_exactly : stream rb t D -> memory -> forall fuel st l,
  D st l -> (length l < fuel)%nat ->
  match new_ext rb m un fuel default_options st with
  | (Ok r, _) => exists w rest inp, l = w ++ rest
      /\ well_formed (fr_get_streaminfo r) (fr_vorbis_comment r) w
      /\ fr_blocks r = Ok inp /\ D inp rest
  | (Err _, _) => forall si vc w rest, l = w ++ rest -> ~ well_formed si vc w
  | _ => False
  end.
Proof. exact (fun HS Hun => new_result rb t D HS m un Hun). Qed.

Theorem C47_accepted : stream rb t D -> memory -> forall fuel st si vc w rest,
  well_formed si vc w -> D st (w ++ rest) -> (length (w ++ rest) < fuel)%nat ->
  exists r inp, fst (new_ext rb m un fuel default_options st) = Ok r
    /\ fr_get_streaminfo r = si /\ fr_vorbis_comment r = vc /\ fr_blocks r = Ok inp /\ D inp rest.
Proof. exact (fun HS Hun => new_accepts rb t D HS m un Hun). Qed.

(** * C48: metadata reading stops once the desired blocks were read *)

(** With metadata_only, nothing after the Vorbis comment is looked at. *)
Theorem C48_after_comment : stream rb t D -> memory -> forall fuel st si vc w rest,
  well_formed_to_comment si (Some vc) w -> D st (w ++ rest) -> (length (w ++ rest) < fuel)%nat ->
  exists r inp, fst (new_ext rb m un fuel (mkOpts true true) st) = Ok r
    /\ fr_get_streaminfo r = si /\ fr_vorbis_comment r = Some vc
    /\ fr_input r = MetadataOnly inp /\ D inp rest.
Proof. exact (fun HS Hun => stops_after_comment rb t D HS m un Hun). Qed.

(** Without the Vorbis comment, nothing after the block that follows the streaminfo
    is looked at.  That block should not be looked at either. *)
Theorem C48_after_second_partial : stream rb t D -> memory -> forall fuel st si w rest,
  well_formed_to_second si w -> D st (w ++ rest) -> (length (w ++ rest) < fuel)%nat ->
  exists r inp, fst (new_ext rb m un fuel (mkOpts true false) st) = Ok r
    /\ fr_get_streaminfo r = si /\ fr_vorbis_comment r = None
    /\ fr_input r = MetadataOnly inp /\ D inp rest.
Proof. exact (fun HS Hun => stops_after_second rb t D HS m un Hun). Qed.

(** * C49: options control tags and audio access *)

Theorem C49_exactly : stream rb t D -> memory -> forall fuel opts st l,
  D st l -> (length l < fuel)%nat ->
  match new_ext rb m un fuel opts st with
  | (Ok r, _) => exists w rest inp, l = w ++ rest
      /\ opens opts (fr_get_streaminfo r) (fr_vorbis_comment r) w /\ D inp rest
      /\ fr_input r = (if metadata_only opts then MetadataOnly inp else Full inp)
  | (Err _, _) => forall si vc w rest, l = w ++ rest -> ~ opens opts si vc w
  | _ => False
  end.
Proof. exact (fun HS Hun => new_ext_result rb t D HS m un Hun). Qed.

Theorem C49_access : stream rb t D -> memory -> forall fuel opts st l r,
  D st l -> (length l < fuel)%nat -> fst (new_ext rb m un fuel opts st) = Ok r ->
  (opt_read_vorbis_comment opts = false -> shows r None [])
  /\ (metadata_only opts = true ->
      (exists w, fr_blocks r = Panic w) /\ (exists w, fr_samples r = Panic w)
      /\ (exists w, fr_into_samples r = Panic w))
  /\ (metadata_only opts = false ->
      succeeded (fr_blocks r) /\ succeeded (fr_samples r) /\ succeeded (fr_into_samples r)).
Proof. exact (fun HS => options_audio rb t D HS m un). Qed.

Theorem C49_streaminfo : stream rb t D -> memory -> forall fuel opts opts' st st' l r r',
  D st l -> D st' l -> (length l < fuel)%nat ->
  fst (new_ext rb m un fuel opts st) = Ok r -> fst (new_ext rb m un fuel opts' st') = Ok r' ->
  fr_get_streaminfo r = fr_get_streaminfo r'.
Proof. exact (fun HS => options_agree rb t D HS m un). Qed.

(** A file that opens with the default options opens with all, and shows the same. *)
Theorem C49_accepted : stream rb t D -> memory -> forall fuel opts st st' l r,
  D st l -> D st' l -> (length l < fuel)%nat ->
  fst (new_ext rb m un fuel default_options st) = Ok r ->
  exists r', fst (new_ext rb m un fuel opts st') = Ok r'
    /\ fr_get_streaminfo r' = fr_get_streaminfo r
    /\ fr_vorbis_comment r' = (if opt_read_vorbis_comment opts then fr_vorbis_comment r else None).
Proof. exact (fun HS => options_accept rb t D HS m un). Qed.

(** * C53: uninitialised metadata buffers are never exposed *)

Section Memory.
  Context (un' : nat -> list Z).
  Notation memory' := (forall n, length (un' n) = n).

Theorem C53_block : stream rb t D -> memory -> memory' -> forall ty n st st' l,
  0 <= n < 2 ^ 32 -> D st l -> D st' l ->
  fst (read_metadata_block rb m un ty n st) = fst (read_metadata_block rb m un' ty n st').
Proof. exact (fun HS => memory_block rb t D HS m un un'). Qed.

Theorem C53_with_header : stream rb t D -> memory -> memory' -> forall st st' l,
  D st l -> D st' l ->
  fst (read_metadata_block_with_header rb m un st) = fst (read_metadata_block_with_header rb m un' st').
Proof. exact (fun HS => memory_with_header rb t D HS m un un'). Qed.

Theorem C53_iterator : stream rb t D -> memory -> memory' -> forall n st st' l,
  D st l -> D st' l ->
  fst (history_all (fun _ : unit => mr_next rb m un) (repeat tt n) (mr_new st))
  = fst (history_all (fun _ : unit => mr_next rb m un') (repeat tt n) (mr_new st')).
Proof. exact (fun HS => memory_iterator rb t D HS m un un'). Qed.

Theorem C53_open : stream rb t D -> memory -> memory' -> forall fuel opts st st' l,
  D st l -> D st' l ->
  match fst (new_ext rb m un fuel opts st), fst (new_ext rb m un' fuel opts st') with
  | Ok r, Ok r' => same_reader D r r'
  | Err e, Err e' => e = e'
  | Panic w, Panic w' => w = w'
  | UB w, UB w' => w = w'
  | OutOfFuel, OutOfFuel => True
  | _, _ => False
  end.
Proof. exact (fun HS => memory_new_ext rb t D HS m un un'). Qed.
End Memory.
End ForAllReaders.

(** * [FlacReader::new] itself *)

(** On a source that delivers [l] in any chunks. *)
Theorem C47_new : forall t m un fuel script l, (forall n, length (un n) = n) ->
  delivers t script l -> (length l < fuel)%nat ->
  match flac_new m un fuel script with
  | Ok r => exists w rest inp, l = w ++ rest
      /\ well_formed (fr_get_streaminfo r) (fr_vorbis_comment r) w
      /\ fr_blocks r = Ok inp /\ buffered t inp rest
  | Err _ => forall si vc w rest, l = w ++ rest -> ~ well_formed si vc w
  | _ => False
  end.
Proof. exact flac_new_result. Qed.

(** * C48 refuted *)

(** With metadata_only and without read_vorbis_comment nothing after the streaminfo
    should matter. *)
Definition stops_after_streaminfo : Prop :=
  forall m un fuel si w more more', (forall n, length (un n) = n) -> block_code false (MbStreamInfo si) w ->
  (length (signature ++ w ++ more) < fuel)%nat -> (length (signature ++ w ++ more') < fuel)%nat ->
  bytes_ok more -> bytes_ok more' -> len more < 1024 -> len more' < 1024 ->
  succeeded (flac_new_ext m un fuel [EvData (signature ++ w ++ more)] (mkOpts true false)) ->
  succeeded (flac_new_ext m un fuel [EvData (signature ++ w ++ more')] (mkOpts true false)).

Definition info : stream_info :=
  mkSi 4096 4608 None (Some 5000) 44100 2 16 (Some 1000000)
    [1; 2; 3; 4; 5; 6; 7; 8; 9; 10; 11; 12; 13; 14; 15; 16].
Definition info_bytes : list Z :=
  [16; 0; 18; 0; 0; 0; 0; 0; 19; 136; 10; 196; 66; 240; 0; 15; 66; 64;
   1; 2; 3; 4; 5; 6; 7; 8; 9; 10; 11; 12; 13; 14; 15; 16].
Lemma info_code : streaminfo_fits info /\ streaminfo_valid info /\ streaminfo_code info info_bytes.
Proof.
  split; [|split].
  - unfold streaminfo_fits, info, byte_string. cbn. repeat (split; [first [exact I|lia|repeat constructor; unfold is_byte; lia]|]). reflexivity.
  - unfold streaminfo_valid, info. cbn. lia.
  - exists (firstn 18 info_bytes). split; [reflexivity|]. split; [repeat constructor; unfold is_byte; lia|vm_compute; reflexivity].
Qed.
Lemma info_block last : block_code last (MbStreamInfo info) ([128 * Z.b2z last] ++ [0; 0; 34] ++ info_bytes).
Proof.
  exists 0, info_bytes. split; [constructor; apply info_code|]. split; [reflexivity|]. rewrite Z.add_0_r. reflexivity.
Qed.

Theorem C48_refuted : ~ stops_after_streaminfo.
Proof.
  exact (fun H => ltac:(
    destruct (H Release (repeat 0) 100%nat info _ [129; 0; 0; 0] [] (fun n => repeat_length 0 n) (info_block false)
      ltac:(vm_compute; lia) ltac:(vm_compute; lia) ltac:(repeat constructor; unfold is_byte; lia) ltac:(constructor)
      ltac:(reflexivity) ltac:(reflexivity) ltac:(eexists; vm_compute; reflexivity)) as [r Hr];
    vm_compute in Hr; discriminate Hr)).
Qed.

(** * Concrete cases *)

Definition example_vendor : list Z := [99; 108; 195; 164].  (* "clä" *)
Definition example_entries : list (option comment) :=
  [Some ([84; 73; 84; 76; 69], [226; 130; 172; 61]); None; Some ([116; 105; 116; 108; 101], []); Some ([88], [120])].
Lemma example_ok : utf8 example_vendor /\ Forall entry_ok example_entries.
Proof.
  split; [exists [99; 108; 228]; split; [repeat constructor; unfold scalar; lia|reflexivity]|].
  repeat constructor; cbn [fst snd]; try lia.
  - exists [8364; 61]. split; [repeat constructor; unfold scalar; lia|reflexivity].
  - exists []. split; [constructor|reflexivity].
  - exists [120]. split; [repeat constructor; unfold scalar; lia|reflexivity].
Qed.
Definition example_comments : metadata_block := MbVorbisComment (vorbis_of example_vendor (present example_entries)).
Lemma example_block last : block_code last example_comments
  ([128 * Z.b2z last + 4] ++ be_bytes 3 (len (comments_bytes example_vendor example_entries)) ++ comments_bytes example_vendor example_entries).
Proof.
  exists 4, (comments_bytes example_vendor example_entries). split; [|split; [reflexivity|reflexivity]].
  apply body_comments; [apply example_ok..|vm_compute; discriminate].
Qed.

(** A file with streaminfo, a reserved block, comments, and an empty padding block. *)
Definition example_blocks : list metadata_block := [MbStreamInfo info; MbReserved; example_comments; MbPadding 0].
Definition example_data : list Z :=
  ([0] ++ [0; 0; 34] ++ info_bytes)
  ++ ([9] ++ be_bytes 3 2 ++ [255; 255])
  ++ ([4] ++ be_bytes 3 (len (comments_bytes example_vendor example_entries)) ++ comments_bytes example_vendor example_entries)
  ++ ([129; 0; 0; 0]).
Lemma example_blocks_code : blocks_code example_blocks example_data.
Proof.
  apply (blocks_more (MbStreamInfo info) ([0] ++ [0; 0; 34] ++ info_bytes)); [exact (info_block false)|].
  apply (blocks_more MbReserved ([9] ++ be_bytes 3 2 ++ [255; 255])).
  { exists 9, [255; 255]. split; [constructor; [lia|repeat constructor; unfold is_byte; lia]|]. split; reflexivity. }
  apply (blocks_more example_comments); [exact (example_block false)|].
  apply (blocks_last (MbPadding 0) [129; 0; 0; 0]).
  exists 1, []. split; [apply (body_padding []); constructor|]. split; reflexivity.
Qed.
Example C47_example : well_formed info (Some (vorbis_of example_vendor (present example_entries))) (signature ++ example_data).
Proof.
  exists [MbReserved; example_comments; MbPadding 0], example_data. split; [reflexivity|]. split; [exact example_blocks_code|].
  split; [repeat constructor; intros ? ?; discriminate|].
  apply (comment_one [MbReserved] [MbPadding 0]); repeat constructor; intros ? ?; discriminate.
Qed.
Example C47_new_example :
  match flac_new Debug (repeat 7) 200%nat [EvData (signature ++ example_data ++ [1; 2; 3])] with
  | Ok r => fr_get_streaminfo r = info
      /\ fr_vorbis_comment r = Some (vorbis_of example_vendor (present example_entries))
      /\ exists inp, fr_blocks r = Ok inp
           /\ br_num_valid inp - br_pos inp = 3
  | _ => False
  end.
Proof. vm_compute. repeat split. eexists. split; reflexivity. Qed.
Example C40_example : streaminfo_fits info /\ streaminfo_valid info /\ streaminfo_code info info_bytes.
Proof. exact info_code. Qed.
(** A sample rate of 0 *)
Example C40_reject_example :
  fst (read_metadata_block (cu_rb Debug) Debug (repeat 0) 0 34
    (mkCursor ([16; 0; 18; 0; 0; 0; 0; 0; 19; 136; 0; 0; 2; 240; 0; 15; 66; 64] ++ skipn 18 info_bytes) 0))
  = Err (FormatError "invalid sample rate").
Proof. vm_compute. reflexivity. Qed.
Example C41_example :
  block_code true (MbPadding 3) ([129] ++ [0; 0; 3] ++ repeat 0 3)
  /\ fst (read_metadata_block_with_header (cu_rb Debug) Debug (repeat 7) (mkCursor ([129; 0; 0; 3] ++ repeat 0 3) 0))
     = Ok (MbPadding 3)
  /\ fst (read_metadata_block (cu_rb Debug) Debug (repeat 7) 0 34 (mkCursor info_bytes 0)) = Ok (MbStreamInfo info)
  /\ fst (read_metadata_block (cu_rb Debug) Debug (repeat 7) 127 3 (mkCursor [1; 2; 3] 0))
     = Err (FormatError "invalid metadata block type")
  /\ fst (read_metadata_block (cu_rb Debug) Debug (repeat 7) 128 3 (mkCursor [1; 2; 3] 0)) = Ok MbReserved.
Proof.
  split; [|vm_compute; auto].
  exists 1, (repeat 0 3). split; [apply (body_padding (repeat 0 3)); repeat constructor; unfold is_byte; lia|]. split; reflexivity.
Qed.
Example C42_example :
  fst (history_all (fun _ : unit => mr_next (cu_rb Debug) Debug (repeat 0)) (repeat tt 6) (mr_new (mkCursor example_data 0)))
  = map (fun b => Ok (Some (ROk b))) example_blocks ++ [Ok None; Ok None].
Proof. vm_compute. reflexivity. Qed.
Example C43_example : utf8 example_vendor /\ Forall entry_ok example_entries
  /\ len (comments_bytes example_vendor example_entries) <= MiB10.
Proof. split; [apply example_ok|]. split; [apply example_ok|]. vm_compute. discriminate. Qed.
Example C44_example : exists vc,
  fst (read_metadata_block (cu_rb Debug) Debug (repeat 7) 4 (len (comments_bytes example_vendor example_entries))
         (mkCursor (comments_bytes example_vendor example_entries) 0)) = Ok (MbVorbisComment vc)
  /\ vc_vendor vc = example_vendor
  /\ vc_comments vc = [([84; 73; 84; 76; 69; 61; 226; 130; 172; 61], 5); ([116; 105; 116; 108; 101; 61], 5); ([88; 61; 120], 1)].
Proof. eexists. split; [vm_compute; reflexivity|]. vm_compute. auto. Qed.
(** A lookup of "tITLe" *)
Example C45_example : values_of [116; 73; 84; 76; 101] (present example_entries) [[226; 130; 172; 61]; []].
Proof.
  apply (values_take _ ([84; 73; 84; 76; 69], [226; 130; 172; 61])); [repeat constructor; unfold same_letter, upper; cbn; lia|].
  apply (values_take _ ([116; 105; 116; 108; 101], [])); [repeat constructor; unfold same_letter, upper; cbn; lia|].
  apply values_skip; [|constructor]. intros H. cbn [fst] in H. inversion H as [|? ? ? ? ? H']. inversion H'.
Qed.
(** Stopping after the comments: what follows is not a block. *)
Example C48_example :
  match flac_new_ext Debug (repeat 7) 200%nat
    [EvData (signature ++ firstn (length example_data - 4) example_data ++ [255; 255])] (mkOpts true true) with
  | Ok r => fr_vorbis_comment r = Some (vorbis_of example_vendor (present example_entries))
  | _ => False
  end.
Proof. vm_compute. reflexivity. Qed.
Example C49_example :
  match flac_new_ext Debug (repeat 7) 200%nat [EvData (signature ++ example_data)] (mkOpts false false) with
  | Ok r => fr_vorbis_comment r = None /\ succeeded (fr_samples r)
  | _ => False
  end.
Proof. vm_compute. split; [reflexivity|eexists; reflexivity]. Qed.
Example C53_example :
  fst (read_metadata_block (cu_rb Debug) Debug (repeat 7) 2 6 (mkCursor [1; 2; 3; 4; 5; 6] 0))
  = fst (read_metadata_block (cu_rb Debug) Debug (repeat 200) 2 6 (mkCursor [1; 2; 3; 4; 5; 6] 0)).
Proof. vm_compute. reflexivity. Qed.

Print Assumptions C40_validated.
Print Assumptions C40_all.
Print Assumptions C40_unique.
Print Assumptions C40_length.
Print Assumptions C41_block.
Print Assumptions C41_large_types.
Print Assumptions C41_with_header.
Print Assumptions C41_accepted.
Print Assumptions C42_iterator.
Print Assumptions C43_round_trip.
Print Assumptions C44_well_formed.
Print Assumptions C45_tags.
Print Assumptions C45_file.
Print Assumptions C45_values.
Print Assumptions C47_exactly.
Print Assumptions C47_accepted.
Print Assumptions C47_new.
Print Assumptions C48_after_comment.
Print Assumptions C48_after_second_partial.
Print Assumptions C48_refuted.
Print Assumptions C49_exactly.
Print Assumptions C49_access.
Print Assumptions C49_streaminfo.
Print Assumptions C49_accepted.
Print Assumptions C53_block.
Print Assumptions C53_with_header.
Print Assumptions C53_iterator.
Print Assumptions C53_open.
