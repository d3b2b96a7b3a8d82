(** Images, fonts and sounds of the Media plug-in (plugins/media/media.c 127-148, 1867-1905, 1933-1955, 2048-2200, 2311-2425, 1724-1740):
    the three tables, the destructors and the things SDL keeps.

    Objects are numbered in the order in which they are made.  Positions and sizes of images, the texts themselves and the sound device
    are left out; a frame draws the texture of each visible image.  [ctr_internal_media_reset] is not modelled: it is called before a
    program begins and when it ends. *)
From Verif Require Import Common Fuel SlotSpec.
Local Open Scope nat_scope.

(** What SDL keeps; [None]: freed *)
Inductive kept := Texture (p : sight) | Surface (f : nat) | Chunk (f : nat) | Music (f : nat) | TFont (f : nat).
Definition heap : Type := list (option kept).
Definition live (h : heap) (x : nat) : option kept := match nth_error h x with Some k => k | None => None end.
Definition free (h : heap) (x : nat) : heap := replace h x None.
(** media.c 95-131, [MediaIMG], as far as needed *)
Record islot := mkIslot { tex : option nat; surf : option nat; ifont : option nat; vis : bool }.
Inductive oref := OI (j : nat) | OF (k : nat) | OS (j : nat) | OM (j : nat) | ONil.
(** The tables with their counters; objects with their [value.rvalue->ptr] and whether they are collected; [controllableObject] *)
Record media := mkMedia { hp : heap; imgs : nat -> islot; icount : nat; fnts : nat -> option nat; fcount : nat; auds : nat -> option nat; acount : nat;
                          objs : list (oref * bool); control : option nat }.
Definition upd {A : Type} (f : nat -> A) (i : nat) (x : A) : nat -> A := fun j => if j =? i then x else f j.
(** An object that a message is sent to; a collected one must not be used *)
Definition obj (m : media) (o : nat) : res oref := match nth_error (objs m) o with Some (r, false) => Ret r | _ => Bad end.
Definition birth (m : media) (r : oref) : media * sign :=
  (mkMedia (hp m) (imgs m) (icount m) (fnts m) (fcount m) (auds m) (acount m) (objs m ++ [(r, false)]) (control m), Made (length (objs m))).
Definition with_img (m : media) (h : heap) (j : nat) (s : islot) : media := mkMedia h (upd (imgs m) j s) (icount m) (fnts m) (fcount m) (auds m) (acount m) (objs m) (control m).
(** media.c 2337-2382, [ctr_img_new]: the counter is not checked, the table has 100 places *)
Definition img_new (m : media) : res (media * sign) :=
  if 100 <=? icount m then Bad
  else Ret (birth (mkMedia (hp m) (upd (imgs m) (icount m) (mkIslot None None None true)) (S (icount m)) (fnts m) (fcount m) (auds m) (acount m) (objs m) (control m)) (OI (icount m))).
(** media.c 2395-2421, [ctr_img_img] *)
Definition img_img (load : nat -> content) (o f : nat) (m : media) : res (media * sign) :=
  let! r := obj m o in
  match r with
  | OI j => match load f with
            | Missing => Ret (m, Error)
            | Broken => Ret (m, Fatal)
            | Good => let s := imgs m j in
                      Ret (with_img m (hp m ++ [Some (Surface f); Some (Texture (Bare f))]) j (mkIslot (Some (S (length (hp m)))) (Some (length (hp m))) (ifont s) (vis s)), Answered)
            end
  | _ => Bad
  end.
(** media.c 2469-2473, [ctr_img_visible_set] *)
Definition img_visible_set (o : nat) (b : bool) (m : media) : res (media * sign) :=
  let! r := obj m o in
  match r with OI j => let s := imgs m j in Ret (with_img m (hp m) j (mkIslot (tex s) (surf s) (ifont s) b), Answered) | _ => Bad end.
(** media.c 3107-3120, [ctr_img_text], and 2974-3061, [ctr_internal_img_render_text]: a new texture, the old one is not destroyed *)
Definition img_text (o : nat) (t : text) (m : media) : res (media * sign) :=
  let! r := obj m o in
  match r with
  | OI j => let s := imgs m j in
            match surf s with
            | None => Ret (m, Answered)
            | Some x =>
                match ifont s with
                | None => Ret (m, Fatal)
                | Some y =>
                    match live (hp m) x, live (hp m) y with
                    | Some (Surface f), Some (TFont g) =>
                        Ret (with_img m (hp m ++ [Some (Texture (Lettered f g t))]) j (mkIslot (Some (length (hp m))) (surf s) (ifont s) (vis s)), Answered)
                    | _, _ => Bad
                    end
                end
            end
  | _ => Bad
  end.
(** media.c 2742-2748, [ctr_img_font]: Nil has no [MediaFNT] *)
Definition img_font (o q : nat) (m : media) : res (media * sign) :=
  let! r := obj m o in
  let! r' := obj m q in
  match r, r' with
  | OI j, OF k => let s := imgs m j in Ret (with_img m (hp m) j (mkIslot (tex s) (surf s) (fnts m k) (vis s)), Answered)
  | _, _ => Bad
  end.
(** media.c 1890-1904, [ctr_font_new] *)
Definition font_new (m : media) : res (media * sign) :=
  if 10 <=? fcount m then Ret (birth m ONil)
  else Ret (birth (mkMedia (hp m) (imgs m) (icount m) (upd (fnts m) (fcount m) None) (S (fcount m)) (auds m) (acount m) (objs m) (control m)) (OF (fcount m))).
(** media.c 1933-1954, [ctr_font_font] *)
Definition font_font (load : nat -> content) (o f : nat) (m : media) : res (media * sign) :=
  let! r := obj m o in
  match r with
  | OF k => let set h x := mkMedia h (imgs m) (icount m) (upd (fnts m) k x) (fcount m) (auds m) (acount m) (objs m) (control m) in
            match load f with
            | Missing => Ret (m, Fatal)
            | Broken => Ret (set (hp m) None, Answered)
            | Good => Ret (set (hp m ++ [Some (TFont f)]) (Some (length (hp m))), Answered)
            end
  | _ => Bad
  end.
(** media.c 2067-2089, [ctr_sound_new_set], and 2168-2189, [ctr_music_new_set]: the table has 50 places, only sounds are checked *)
Definition audio_new (load : nat -> content) (music : bool) (f : nat) (m : media) : res (media * sign) :=
  if 50 <=? acount m then if music then Bad else Ret (birth m ONil)
  else
    let! h := match auds m (acount m) with
              | None => Ret (hp m)
              | Some x => match live (hp m) x, music with Some (Chunk _), false | Some (Music _), true => Ret (free (hp m) x) | _, _ => Bad end
              end in
    let '(h, b) := match load f with
                   | Missing => (h, auds m (acount m))
                   | Broken => (h, None)
                   | Good => (h ++ [Some (if music then Music f else Chunk f)], Some (length h))
                   end in
    let '(m', s) := birth (mkMedia h (imgs m) (icount m) (fnts m) (fcount m) (upd (auds m) (acount m) b) (S (acount m)) (objs m) (control m)) ((if music then OM else OS) (acount m)) in
    Ret (m', match b with None => Error | Some _ => s end).
(** media.c 2092-2099, [ctr_sound_play], and 2191-2198, [ctr_music_play] *)
Definition play (o : nat) (m : media) : res (media * sign) :=
  let! r := obj m o in
  match r with
  | OS j => match auds m j with None => Ret (m, Silent) | Some x => match live (hp m) x with Some (Chunk f) => Ret (m, Heard f) | _ => Bad end end
  | OM j => match auds m j with None => Ret (m, Silent) | Some x => match live (hp m) x with Some (Music f) => Ret (m, Heard f) | _ => Bad end end
  | _ => Bad
  end.
(** media.c 2511-2516, [ctr_img_controllable] *)
Definition img_controllable (o : nat) (m : media) : res (media * sign) :=
  let! r := obj m o in
  match r with
  | OI _ => Ret (mkMedia (hp m) (imgs m) (icount m) (fnts m) (fcount m) (auds m) (acount m) (objs m) (Some o), Answered)
  | _ => Bad
  end.
(** SDL frees a thing that is still there; NULL is passed over (media.c 2055 and 2061 rely on SDL_mixer for that) *)
Definition drop (ok : kept -> bool) (x : option nat) (h : heap) : res heap :=
  match x with
  | None => Ret h
  | Some x => match live h x with Some k => if ok k then Ret (free h x) else Bad | None => Bad end
  end.
Definition is_texture (k : kept) : bool := match k with Texture _ => true | _ => false end.
Definition is_surface (k : kept) : bool := match k with Surface _ => true | _ => false end.
Definition is_chunk (k : kept) : bool := match k with Chunk _ => true | _ => false end.
Definition is_music (k : kept) : bool := match k with Music _ => true | _ => false end.
Definition is_tfont (k : kept) : bool := match k with TFont _ => true | _ => false end.
Definition gone (m : media) (o : nat) (r : oref) (h : heap) (im : nat -> islot) : media :=
  mkMedia h im (icount m) (fnts m) (fcount m) (auds m) (acount m) (replace (objs m) o (r, true)) (control m).
(** media.c 1873-1882, the loop of the destructor of fonts over all 100 places *)
Definition forget (x : nat) (im : nat -> islot) : nat -> islot :=
  fun j => let s := im j in if (j <? 100) && match ifont s with Some y => y =? x | None => false end then mkIslot (tex s) (surf s) None (vis s) else s.
(** system.c 122-127, the sweep; media.c 1867-1888, [ctr_font_destructor]; 2054-2058, [ctr_music_destructor]; 2060-2064, [ctr_sound_destructor];
    2311-2325, [ctr_img_destructor]: texture and surface are destroyed but not forgotten *)
Definition collect (o : nat) (m : media) : res (media * sign) :=
  let! r := obj m o in
  match r with
  | OI j => let s := imgs m j in
            let! h := drop is_texture (tex s) (hp m) in
            let! h := drop is_surface (surf s) h in
            Ret (gone m o r h (upd (imgs m) j (mkIslot (tex s) (surf s) None (vis s))), Answered)
  | OF k => match fnts m k with
            | None => Ret (gone m o r (hp m) (imgs m), Answered)
            | Some x => let! h := drop is_tfont (Some x) (hp m) in Ret (gone m o r h (forget x (imgs m)), Answered)
            end
  | OS j => let! h := drop is_chunk (auds m j) (hp m) in Ret (gone m o r h (imgs m), Answered)
  | OM j => let! h := drop is_music (auds m j) (hp m) in Ret (gone m o r h (imgs m), Answered)
  | ONil => Ret (gone m o r (hp m) (imgs m), Answered)
  end.
(** media.c 1724-1740: every image of the table that is visible, also one that was collected *)
Fixpoint draw_all (m : media) (l : list nat) : res (list sight) :=
  match l with
  | [] => Ret []
  | i :: r => let s := imgs m i in
              let! here := if vis s then match tex s with
                                         | None => Ret []
                                         | Some x => match live (hp m) x with Some (Texture p) => Ret [p] | _ => Bad end
                                         end
                           else Ret [] in
              let! rest := draw_all m r in
              Ret (here ++ rest)
  end.
(** media.c 1403-1740, one round of the loop of [ctr_media_screen]: the player is used (1408-1410, 1716-1722), the images are drawn *)
Definition frame (m : media) : res (media * sign) :=
  let! _ := match control m with None => Ret ONil | Some o => obj m o end in
  let! l := draw_all m (seq 0 (icount m)) in
  Ret (m, Seen l).
Definition deed_step (load : nat -> content) (d : deed) (m : media) : res (media * sign) :=
  match d with
  | NewImage => img_new m
  | Source o f => img_img load o f m
  | Visible o b => img_visible_set o b m
  | WriteOn o t => img_text o t m
  | NewFont => font_new m
  | FontSource o f => font_font load o f m
  | UseFont o q => img_font o q m
  | NewSound f => audio_new load false f m
  | NewMusic f => audio_new load true f m
  | Play o => play o m
  | Control o => img_controllable o m
  | Collect o => collect o m
  | Frame => frame m
  end.
Fixpoint deeds (load : nat -> content) (l : list deed) (m : media) : res (list sign * media) :=
  match l with
  | [] => Ret ([], m)
  | d :: r => let! x := deed_step load d m in
              let '(m, a) := x in
              match a with
              | Fatal => Ret ([Fatal], m)
              | _ => let! y := deeds load r m in Ret (a :: fst y, snd y)
              end
  end.
(** media.c 127-148 at the start *)
Definition empty : media := mkMedia [] (fun _ => mkIslot None None None false) 0 (fun _ => None) 0 (fun _ => None) 0 [] None.
