(** Model of the [main] functions of the examples that take a list of files. *)
From Verif Require Export ModelPrograms ModelBench.

(** What a program has printed, and the audio file at each path that it has written.
    Simplification: printing succeeds.
    examples/decode_simple.rs:29-55, examples/decode.rs:35-82, examples/tags.rs:25. *)
Record world := mkWorld { w_printed : list Z; w_audio : list Z -> wav }.

(** [print!]; [println!] prints a line feed after it.
    examples/decode_simple.rs:42-53, examples/decode.rs:74-76. *)
Definition print (s : list Z) : M world unit := fun w => (Ok tt, mkWorld (w_printed w ++ s) (w_audio w)).
(** examples/decode_simple.rs:44-53, examples/decode.rs:76-81, examples/tags.rs:25 *)
Definition println (s : list Z) : M world unit := print (s ++ [10]).

(** [for fname in env::args().skip(1)].
    examples/decode_simple.rs:41, examples/decode.rs:71, examples/tags.rs:17. *)
Fixpoint for_each (body : list Z -> M world unit) (args : list (list Z)) : M world unit :=
  match args with
  | [] => ret tt
  | fname :: args => body fname ;;; for_each body args
  end.

(** Equality of paths.  (For [run_file]; no line of the examples.) *)
Definition same_path (p q : list Z) : bool := if list_eq_dec Z.eq_dec p q then true else false.

Section Mains.
  (** [wav_path]: [with_extension("wav")]. *)
  Context (m : build) (uninit : nat -> list Z) (fuel turns : nat) (fs : file_system)
    (wav_path : list Z -> list Z) (io_text : io_kind -> string).

  (** A call that decodes the file [fname] and writes the audio file next to it.
      Simplification: there is no model of a program that reads a file which it writes
      itself; it has no result here.
      examples/decode_simple.rs:43, examples/decode.rs:75. *)
  Definition run_file {A} (c : list Z -> M wav A) (fname : list Z) : M world A := fun w =>
    if same_path (wav_path fname) fname || match w_audio w fname with Some _ => true | None => false end
    then (OutOfFuel, w)
    else
      let (o, f) := c fname None in
      (o, mkWorld (w_printed w)
            (match f with
             | None => w_audio w
             | Some _ => fun p => if same_path p (wav_path fname) then f else w_audio w p
             end)).

  (** examples/decode_simple.rs:41-55 *)
  Definition simple_main : list (list Z) -> M world unit :=
    for_each (fun fname =>
      print fname ;;;
      r <- run_file (fun fname => catch (decode_simple m uninit fuel turns fs fname)) fname ;;
      match r with
      | ROk _ => println (literal ": done")
      | RErr (Unsupported msg) => println (literal ": error, unsupported: " ++ literal msg)
      | RErr (FormatError msg) => println (literal ": error, invalid input: " ++ literal msg)
      | RErr (IoError io_err) => println (literal ": IO error: " ++ literal (io_text io_err))
      end).

  (** examples/decode.rs:68-82 *)
  Definition stereo_main (args : list (list Z)) : M world unit :=
    for_each (fun fname =>
      print fname ;;;
      run_file (decode_stereo m uninit fuel turns fs) fname ;;;
      println (literal ": done")) args ;;;
    match args with [] => println (literal "no files to decode") | _ :: _ => ret tt end.

  (** examples/tags.rs:17-28.  The lines of one file are printed together. *)
  Definition tags_main : list (list Z) -> M world unit :=
    for_each (fun fname =>
      s <- lift (tags_program m uninit fuel turns fs fname) ;;
      print s).
End Mains.
