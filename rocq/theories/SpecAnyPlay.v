(** Playing any string of bytes, in either kind of build. *)
From Verif Require Export SpecPrograms SpecLooseFault.
From Verif Require Import SpecReader.

(** How the samples end: with the end, with an error, or with a panic. *)
Inductive ending := AtEnd | OnError (e : error) | OnPanic.

(** See [plays]. *)
Definition ending_of (o : option error) : ending := match o with None => AtEnd | Some e => OnError e end.

(** The frames: those of the format; in a build without overflow checks also those that
    need a 32-bit counter to wrap (SpecLoose.v). *)
Definition any_frame (m : build) (f : header * list (list Z)) (w : list Z) : Prop :=
  match m with
  | Debug => frame_code (fst f) (snd f) w
  | Release => loose_frame (fst f) (snd f) w
  end.

(** What comes after the last frame. *)
Inductive any_stop (t : tail) : build -> list Z -> ending -> Prop :=
| any_end : forall m l, t = TEof -> (length l <= 1)%nat -> any_stop t m l AtEnd
| any_fault : forall e w rest, frame_fault e w -> any_stop t Debug (w ++ rest) (OnError e)
| any_overflow : forall p rest, frame_overflow p -> any_stop t Debug (p ++ rest) OnPanic
| any_source : forall l, incomplete l -> (forall p rest, l = p ++ rest -> ~ frame_overflow p) ->
    (t = TEof -> (2 <= length l)%nat) -> any_stop t Debug l (OnError (tail_error t))
| any_loose_fault : forall e w rest, loose_fault e w -> any_stop t Release (w ++ rest) (OnError e)
| any_loose_source : forall l, loose_incomplete l ->
    (t = TEof -> (2 <= length l)%nat) -> any_stop t Release l (OnError (tail_error t)).

(** [l] consists of [frames], then playing stops. *)
Definition any_plays (m : build) (t : tail) (l : list Z) (frames : list (header * list (list Z))) (o : ending) : Prop :=
  exists ws rest, l = concat ws ++ rest /\ Forall2 (any_frame m) frames ws /\ any_stop t m rest o.

(** What an iterator yields: [pcm], and then, for ever, the end; or an error and the end;
    or a panic, after which nothing is said. *)
Definition sounds {S} (next : M S (option (result Z))) (st : S) (pcm : list Z) (o : ending) : Prop :=
  match o with
  | AtEnd => yields next st (map ROk pcm)
  | OnError e => yields next st (map ROk pcm ++ [RErr e])
  | OnPanic => exists why, fst (nexts next (length pcm + 1) st)
      = map (fun x => Ok (Some (ROk x))) pcm ++ [Panic why]
  end.

(** How a program ends that passes errors on. *)
Definition ends (o : ending) (r : outcome unit) : Prop :=
  match o with
  | AtEnd => r = Ok tt
  | OnError e => r = Err e
  | OnPanic => exists why, r = Panic why
  end.

(** The file [l] has the streaminfo [si] and these frames. *)
Definition file_any_plays (m : build) (t : tail) (l : list Z) (si : stream_info) (vc : option vorbis_comment)
    (frames : list (header * list (list Z))) (o : ending) : Prop :=
  exists w rest, l = w ++ rest /\ well_formed si vc w /\ any_plays m t rest frames o.

(** How a program ends that supports stereo only and panics on errors: [bad] are the
    frames from the first one on that is not stereo. *)
Definition any_stereo_outcome (bad : list (header * list (list Z))) (o : ending) (r : outcome unit) : Prop :=
  match bad, o with [], AtEnd => r = Ok tt | _, _ => exists why, r = Panic why end.
