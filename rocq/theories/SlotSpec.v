(** Images, fonts and sounds of a program, independent of the code. *)
From Verif Require Import Common.
Local Open Scope nat_scope.

(** A picture shown: that of a file, or that of a file with a text in a font *)
Inductive sight := Bare (f : nat) | Lettered (f : nat) (font : nat) (t : text).
(** Objects: an image (the file it was loaded from, what it shows, the font it has, by file and by object unless that has another
    font by now, whether it is visible), a font, a
    sound, a piece of music (with the file, if it could be loaded), Nil, and what the collector took *)
Inductive thing := Img (file : option nat) (shown : option sight) (font : option (option nat * nat)) (visible : bool) | Fnt (file : option nat) | Snd (file : option nat) | Mus (file : option nat) | Nil | Gone.
(** What a program and the collector do; objects are numbered in the order in which they are made *)
Inductive deed := NewImage | Source (o f : nat) | Visible (o : nat) (b : bool) | WriteOn (o : nat) (t : text) | NewFont | FontSource (o f : nat) | UseFont (o font : nat)
  | NewSound (f : nat) | NewMusic (f : nat) | Play (o : nat) | Control (o : nat) | Collect (o : nat) | Frame.
(** What is observed *)
Inductive sign := Made (o : nat) | Answered | Error | Fatal | Heard (f : nat) | Silent | Seen (l : list sight).
(** Files: missing, not what they should be, or good *)
Inductive content := Missing | Broken | Good.

Record stage := mkStage { things : list thing; player : option nat }.
Fixpoint replace {A : Type} (l : list A) (n : nat) (x : A) : list A := match l, n with [], _ => [] | _ :: r, O => x :: r | y :: r, S n => y :: replace r n x end.
Definition put (s : stage) (o : nat) (x : thing) : stage := mkStage (replace (things s) o x) (player s).
Definition add (s : stage) (x : thing) : stage * sign := (mkStage (things s ++ [x]) (player s), Made (length (things s))).
Definition is_img (x : thing) : bool := match x with Img _ _ _ _ => true | _ => false end.
Definition is_fnt (x : thing) : bool := match x with Fnt _ => true | _ => false end.
Definition is_aud (x : thing) : bool := match x with Snd _ | Mus _ => true | _ => false end.
(** How many were made of a kind: for the limits all that were made count, so a history carries the numbers *)
Record made := mkMade { images : nat; fonts : nat; sounds : nat }.
Definition sights (l : list thing) : list sight := flat_map (fun x => match x with Img _ (Some p) _ true => [p] | _ => [] end) l.
(** An image that loses its font *)
Definition unfont (o : nat) (x : thing) : thing :=
  match x with Img f p (Some (Some q, y)) v => if q =? o then Img f p None v else x | _ => x end.
(** An image that keeps a font though its object has got another *)
Definition detach (o : nat) (x : thing) : thing :=
  match x with Img f p (Some (Some q, y)) v => if q =? o then Img f p (Some (None, y)) v else x | _ => x end.
Definition each (s : stage) (f : thing -> thing) : stage := mkStage (map f (things s)) (player s).
(** One deed; [None]: the program (or the collector) did something it must not do.  At most 100 images, 50 sounds; the eleventh font and
    the fifty-first sound are Nil. *)
Definition act (load : nat -> content) (d : deed) (w : stage * made) : option (stage * made * sign) :=
  let '(s, m) := w in
  match d with
  | NewImage => if images m <? 100 then let '(s, a) := add s (Img None None None true) in Some (s, mkMade (S (images m)) (fonts m) (sounds m), a) else None
  | NewFont => if fonts m <? 10 then let '(s, a) := add s (Fnt None) in Some (s, mkMade (images m) (S (fonts m)) (sounds m), a)
               else let '(s, a) := add s Nil in Some (s, m, a)
  | NewSound f => if sounds m <? 50
                  then let '(s, a) := add s (Snd (match load f with Good => Some f | _ => None end)) in
                       Some (s, mkMade (images m) (fonts m) (S (sounds m)), match load f with Good => a | _ => Error end)
                  else let '(s, a) := add s Nil in Some (s, m, a)
  | NewMusic f => if sounds m <? 50
                  then let '(s, a) := add s (Mus (match load f with Good => Some f | _ => None end)) in
                       Some (s, mkMade (images m) (fonts m) (S (sounds m)), match load f with Good => a | _ => Error end)
                  else None
  | Source o f => match nth_error (things s) o with
                  | Some (Img _ _ fo v) => match load f with
                                           | Missing => Some (s, m, Error)
                                           | Broken => Some (s, m, Fatal)
                                           | Good => Some (put s o (Img (Some f) (Some (Bare f)) fo v), m, Answered)
                                           end
                  | _ => None
                  end
  | Visible o b => match nth_error (things s) o with Some (Img f p fo _) => Some (put s o (Img f p fo b), m, Answered) | _ => None end
  | WriteOn o t => match nth_error (things s) o with
                   | Some (Img None _ _ _) => Some (s, m, Answered)
                   | Some (Img (Some f) _ None _) => Some (s, m, Fatal)
                   | Some (Img (Some f) _ (Some (q, y)) v) => Some (put s o (Img (Some f) (Some (Lettered f y t)) (Some (q, y)) v), m, Answered)
                   | _ => None
                   end
  | FontSource o f => match nth_error (things s) o with
                      | Some (Fnt _) => match load f with
                                        | Missing => Some (s, m, Fatal)
                                        | Broken => Some (each (put s o (Fnt None)) (detach o), m, Answered)
                                        | Good => Some (each (put s o (Fnt (Some f))) (detach o), m, Answered)
                                        end
                      | _ => None
                      end
  | UseFont o q => match nth_error (things s) o, nth_error (things s) q with
                   | Some (Img f p _ v), Some (Fnt y) => Some (put s o (Img f p (match y with Some y => Some (Some q, y) | None => None end) v), m, Answered)
                   | _, _ => None
                   end
  | Play o => match nth_error (things s) o with
              | Some (Snd (Some f)) | Some (Mus (Some f)) => Some (s, m, Heard f)
              | Some (Snd None) | Some (Mus None) => Some (s, m, Silent)
              | _ => None
              end
  | Control o => match nth_error (things s) o with Some (Img _ _ _ _) => Some (mkStage (things s) (Some o), m, Answered) | _ => None end
  | Collect o => if match player s with Some p => p =? o | None => false end then None
                 else match nth_error (things s) o with
                      | Some (Img _ (Some _) _ true) => None
                      | Some Gone | None => None
                      | Some (Fnt _) => Some (each (put s o Gone) (unfont o), m, Answered)
                      | Some _ => Some (put s o Gone, m, Answered)
                      end
  | Frame => Some (s, m, Seen (sights (things s)))
  end.
(** All that is observed; after a fatal error nothing more *)
Fixpoint wanted (load : nat -> content) (l : list deed) (w : stage * made) : option (list sign) :=
  match l with
  | [] => Some []
  | d :: r => match act load d w with
              | None => None
              | Some (s, m, Fatal) => Some [Fatal]
              | Some (s, m, a) => match wanted load r (s, m) with Some x => Some (a :: x) | None => None end
              end
  end.
