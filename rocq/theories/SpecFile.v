(** The beginning of a FLAC file, and what the crate shows of it. *)
From Verif Require Export SpecMeta SpecOps ModelLib.
From Verif Require Import SpecReader.

(** * The metadata iterator *)

(** What iterating over the metadata blocks at the start of [l] yields: blocks up
    to and including the first flagged last, or up to the first place where there
    is no block, and an error for that. *)
Inductive metadata_items : list Z -> list (result metadata_block) -> Prop :=
| items_last : forall b w rest, block_code true b w -> metadata_items (w ++ rest) [ROk b]
| items_more : forall b w l items, block_code false b w -> metadata_items l items ->
    metadata_items (w ++ l) (ROk b :: items)
| items_error : forall l e,
    (forall last b w rest, l = w ++ rest -> ~ block_code last b w) ->
    metadata_items l [RErr e].

(** * Tags *)

(** Equal up to the case of ASCII letters. *)
Definition upper (x : Z) : Prop := 65 <= x <= 90.
Definition same_letter (x y : Z) : Prop :=
  x = y \/ (upper x /\ y = x + 32) \/ (upper y /\ x = y + 32).
Definition same_name (a b : list Z) : Prop := Forall2 same_letter a b.

(** The values of the comments called [name]. *)
Inductive values_of (name : list Z) : list comment -> list (list Z) -> Prop :=
| values_nil : values_of name [] []
| values_take : forall c cs vs, same_name (fst c) name -> values_of name cs vs ->
    values_of name (c :: cs) (snd c :: vs)
| values_skip : forall c cs vs, ~ same_name (fst c) name -> values_of name cs vs ->
    values_of name (c :: cs) vs.

(** A reader shows a vendor string and comments: [tags()] yields the comments with an
    exact size hint, and then nothing; [get_tag(name)] yields the values of the
    comments of that name, and then nothing. *)
Definition shows {T} (r : flac_reader T) (vendor : option (list Z)) (cs : list comment) : Prop :=
  fr_vendor r = vendor
  /\ (forall n, let h := history_all (fun _ : unit => tags_next) (repeat tt n) (fr_tags r) in
      fst h = firstn n (map (fun c => Ok (Some c)) cs ++ repeat (Ok None) n)
      /\ tags_size_hint (snd h) = (len (skipn n cs), Some (len (skipn n cs))))
  /\ (forall name vs n, values_of name cs vs ->
      fst (history_all (fun _ : unit => get_tag_next) (repeat tt n) (fr_get_tag r name))
      = firstn n (map (fun v => Ok (Some v)) vs ++ repeat (Ok None) n)).

(** Two readers that show the same and have the same bytes to come. *)
Definition same_reader {S} (D : S -> list Z -> Prop) (r r' : flac_reader S) : Prop :=
  fr_get_streaminfo r = fr_get_streaminfo r' /\ fr_vorbis_comment r = fr_vorbis_comment r'
  /\ exists inp inp' l, D inp l /\ D inp' l
     /\ ((fr_input r = Full inp /\ fr_input r' = Full inp')
         \/ (fr_input r = MetadataOnly inp /\ fr_input r' = MetadataOnly inp')).

(** * Opening a file *)

(** "fLaC" *)
Definition signature : list Z := [102; 76; 97; 67].

Definition not_streaminfo (b : metadata_block) : Prop := forall si, b <> MbStreamInfo si.
Definition not_comment (b : metadata_block) : Prop := forall vc, b <> MbVorbisComment vc.

(** The one Vorbis comment among the blocks, if any. *)
Inductive only_comment : list metadata_block -> option vorbis_comment -> Prop :=
| comment_none : forall bs, Forall not_comment bs -> only_comment bs None
| comment_one : forall bs bs' vc, Forall not_comment bs -> Forall not_comment bs' ->
    only_comment (bs ++ MbVorbisComment vc :: bs') (Some vc).

(** Blocks none of which is flagged last. *)
Inductive open_blocks : list metadata_block -> list Z -> Prop :=
| open_nil : open_blocks [] []
| open_cons : forall b w bs w', block_code false b w -> open_blocks bs w' ->
    open_blocks (b :: bs) (w ++ w').

(** [w], at the beginning of a file, opens with streaminfo [si] and Vorbis comment
    [vc]. *)
Definition well_formed (si : stream_info) (vc : option vorbis_comment) (w : list Z) : Prop :=
  exists bs blocks, w = signature ++ blocks /\ blocks_code (MbStreamInfo si :: bs) blocks
    /\ Forall not_streaminfo bs /\ only_comment bs vc.

(** Likewise when reading stops after the Vorbis comment. *)
Definition well_formed_to_comment (si : stream_info) (vc : option vorbis_comment) (w : list Z) : Prop :=
  match vc with
  | None => well_formed si None w
  | Some v => exists bs w1 last w2, w = signature ++ w1 ++ w2
      /\ open_blocks (MbStreamInfo si :: bs) w1 /\ block_code last (MbVorbisComment v) w2
      /\ Forall not_streaminfo bs /\ Forall not_comment bs
  end.

(** Likewise when reading stops after the block that follows the streaminfo. *)
Definition well_formed_to_second (si : stream_info) (w : list Z) : Prop :=
  exists last w1 w2, w = signature ++ w1 ++ w2 /\ block_code last (MbStreamInfo si) w1
    /\ (if last then w2 = []
        else exists last2 b, block_code last2 b w2 /\ not_streaminfo b).

(** What each choice of options requires and exposes. *)
Definition opens (opts : flac_reader_options) (si : stream_info) (vc : option vorbis_comment)
    (w : list Z) : Prop :=
  match metadata_only opts, opt_read_vorbis_comment opts with
  | false, true => well_formed si vc w
  | false, false => vc = None /\ exists v, well_formed si v w
  | true, true => well_formed_to_comment si vc w
  | true, false => vc = None /\ well_formed_to_second si w
  end.
