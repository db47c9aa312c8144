(* Model of /repo/src/modm/ui/animation/key_frame_impl.hpp (KeyFrameAnimation) on top of the animations of AnimModel.v, and of the frame lengths of indicator.hpp,
   pulse.hpp and strobe.hpp. The array of frames and its length are one list (nullptr is the empty list), so the length given is that of the array. *)
From Verif Require Import Base AnimModel.

(* one key frame: length and value[]; key_frame.hpp:33-47 *)
Record keyframe := { flen : Z; fval : list Z }.
(* frames, currentFrame, repeat, the bits of mode: cycle, reverse, reversed, and the animators; key_frame.hpp:144-154. shown is a ghost: the indices of the frames
   that were given to the animators, last first. *)
Record keyanim := { frames : list keyframe; cf : Z; rep : Z; mcycle : bool; mreverse : bool; reversed : bool; anims : list anim; shown : list Z }.
(* setMode: which mode; key_frame.hpp:24-30 *)
Inductive kmode := Repeat | Autoreverse.

(* key_frame_impl.hpp:30-37 *)
Definition knew (f : list keyframe) (a : list anim) : keyanim :=
  {| frames := f; cf := 0; rep := 0; mcycle := true; mreverse := false; reversed := false; anims := a; shown := [] |}.
(* key_frame_impl.hpp:72-83 *)
Definition cancel (k : keyanim) : keyanim :=
  {| frames := frames k; cf := 0; rep := rep k; mcycle := mcycle k; mreverse := mreverse k; reversed := false; anims := map stop (anims k); shown := shown k |}.
(* key_frame_impl.hpp:39-54; the ghost is cleared *)
Definition kstart (k : keyanim) (repeat : Z) : keyanim * bool :=
  match frames k with
  | [] => (k, false)
  | _ => let c := cancel k in
         ({| frames := frames c; cf := 1; rep := repeat; mcycle := mcycle c; mreverse := mreverse c; reversed := reversed c; anims := anims c; shown := [] |}, true)
  end.
(* for ii < size: setValue(frame.value[ii]); key_frame_impl.hpp:63-67 *)
Fixpoint set_all (l : list anim) (v : list Z) : option (list anim) :=
  match l, v with
  | [], _ => Some []
  | a :: r, x :: w => do r1 <- set_all r w; Some (setValue a x :: r1)
  | _ :: _, [] => None
  end.
(* key_frame_impl.hpp:56-70 *)
Definition kstop (k : keyanim) : option keyanim :=
  match frames k with
  | [] => Some (cancel k)
  | _ => do f <- znth (frames k) (if reversed k then 0 else zlen (frames k) - 1);
         do l <- set_all (anims k) (fval f);
         Some (cancel {| frames := frames k; cf := cf k; rep := rep k; mcycle := mcycle k; mreverse := mreverse k; reversed := reversed k; anims := l; shown := shown k |})
  end.
(* key_frame_impl.hpp:85-90 *)
Definition getCurrentKeyFrame (k : keyanim) : Z := if cf k =? 0 then 0 else cf k - 1.
(* key_frame_impl.hpp:92-97 *)
Definition kisAnimating (k : keyanim) : bool := cf k >? 0.
(* checkRepeat: (goes on, repeat, currentFrame); key_frame_impl.hpp:168-181 *)
Definition checkRepeat (r c : Z) : bool * Z * Z :=
  if r =? 1 then (false, r, 0) else (true, (if r >? 0 then r - 1 else r), c).
(* which frame is next: (currentFrame, repeat, reversed, goes on); key_frame_impl.hpp:117-161 *)
Definition next_frame (len c r : Z) (cyc rev : bool) : Z * Z * bool * bool :=
  if cyc then
    if c >=? len then
      let '(ok, r1, c1) := checkRepeat r c in
      if negb ok then (c1, r1, rev, false) else (1, r1, rev, true)
    else (u16 (c + 1), r, rev, true)
  else if negb rev then
    if c >=? len then (u16 (len - 1), r, true, true) else (u16 (c + 1), r, rev, true)
  else
    if c =? 1 then
      let '(ok, r1, c1) := checkRepeat r c in
      if negb ok then (c1, r1, rev, false) else (2, r1, false, true)
    else (u16 (c - 1), r, rev, true).
(* for ii < size: animateTo(frame.value[ii], frame.length); key_frame_impl.hpp:110-115 *)
Fixpoint animate_all (T : ramptype) (l : list anim) (now : Z) (v : list Z) (len : Z) : option (list anim) :=
  match l, v with
  | [], _ => Some []
  | a :: r, x :: w => do a1 <- animateTo T a now x len; do r1 <- animate_all T r now w len; Some (a1 :: r1)
  | _ :: _, [] => None
  end.
(* key_frame_impl.hpp:165 *)
Definition update_all (T : ramptype) (l : list anim) (now : Z) : list anim := map (fun a => fst (update T a now)) l.
(* key_frame_impl.hpp:99-166 *)
Definition kupdate (T : ramptype) (k : keyanim) (now : Z) : option keyanim :=
  if cf k >? 0 then
    do a0 <- znth (anims k) 0;
    if negb (isAnimating a0) then
      do f <- znth (frames k) (cf k - 1);
      do l <- animate_all T (anims k) now (fval f) (flen f);
      let '(c, r, rev, go) := next_frame (zlen (frames k)) (cf k) (rep k) (mcycle k) (reversed k) in
      Some {| frames := frames k; cf := c; rep := r; mcycle := mcycle k; mreverse := mreverse k; reversed := rev;
              anims := if go then update_all T l now else l; shown := (cf k - 1) :: shown k |}
    else
      Some {| frames := frames k; cf := cf k; rep := rep k; mcycle := mcycle k; mreverse := mreverse k; reversed := reversed k;
              anims := update_all T (anims k) now; shown := shown k |}
  else
    Some {| frames := frames k; cf := cf k; rep := rep k; mcycle := mcycle k; mreverse := mreverse k; reversed := reversed k;
            anims := update_all T (anims k) now; shown := shown k |}.
(* key_frame_impl.hpp:191-198 *)
Definition setKeyFrames (k : keyanim) (f : list keyframe) : keyanim :=
  let c := cancel k in
  {| frames := f; cf := cf c; rep := rep c; mcycle := mcycle c; mreverse := mreverse c; reversed := reversed c; anims := anims c; shown := shown c |}.
(* key_frame_impl.hpp:214-220 *)
Definition setMode (k : keyanim) (m : kmode) : keyanim :=
  {| frames := frames k; cf := cf k; rep := rep k; mcycle := match m with Repeat => true | Autoreverse => false end;
     mreverse := match m with Repeat => false | Autoreverse => true end; reversed := false; anims := anims k; shown := shown k |}.
(* the number getMode returns, 0x01 cycle, 0x02 reverse, 0x80 reversed; key_frame_impl.hpp:207-212, key_frame.hpp:150-154 *)
Definition getMode (k : keyanim) : Z := (if mcycle k then 1 else 0) + (if mreverse k then 2 else 0) + (if reversed k then 128 else 0).

(* ---- the program: the public functions, each some milliseconds after the one before; key_frame.hpp:102-138 ---- *)
Inductive kop := KStart (repeat : Z) | KStop | KCancel | KUpdate | KSetMode (m : kmode) | KSetKeyFrames (f : list keyframe).
(* key_frame.hpp:102-138 *)
Definition kperform (T : ramptype) (k : keyanim) (now : Z) (o : kop) : option keyanim :=
  match o with
  | KStart r => Some (fst (kstart k r))
  | KStop => kstop k
  | KCancel => Some (cancel k)
  | KUpdate => kupdate T k now
  | KSetMode m => Some (setMode k m)
  | KSetKeyFrames f => Some (setKeyFrames k f)
  end.
(* key_frame.hpp:102-138 *)
Fixpoint kperforms (T : ramptype) (k : keyanim) (now : Z) (l : list (Z * kop)) : option keyanim :=
  match l with
  | [] => Some k
  | (g, o) :: r => do k1 <- kperform T k (now + g) o; kperforms T k1 (now + g) r
  end.
(* updates after the given numbers of milliseconds; key_frame_impl.hpp:99-166 *)
Fixpoint kplay (T : ramptype) (k : keyanim) (now : Z) (gaps : list Z) : option keyanim :=
  match gaps with
  | [] => Some k
  | g :: r => do k1 <- kupdate T k (now + g); kplay T k1 (now + g) r
  end.

(* ---- the lengths of the frames of the ready-made animations; tw = bits of TimeType, iw = bits of int ---- *)
(* TimeType + TimeType; indicator.hpp:66, strobe.hpp:72 *)
Definition tadd (tw iw x y : Z) : Z := wrap (Z.max tw iw) (x + y).
(* pulse.hpp:46-49: lengths of the two frames *)
Definition pulse_new : Z * Z := (500, 500).
(* pulse.hpp:54-62 *)
Definition pulse_setPeriod (tw period duty : Z) : Z * Z :=
  let duty := if duty >? 100 then 100 else duty in
  let f0 := wrap tw (u32 (period * duty) / 100) in
  (f0, wrap tw (period - f0)).
(* indicator.hpp:46-52: lengths of the four frames *)
Record four := { f0 : Z; f1 : Z; f2 : Z; f3 : Z }.
(* indicator.hpp:46-52 *)
Definition indicator_new : four := {| f0 := 75; f1 := 375; f2 := 115; f3 := 435 |}.
(* f1 shortened by the fades; indicator.hpp:66-68,81-83 *)
Definition shorten (tw l fade : Z) : Z := if l <? fade then 0 else wrap tw (l - fade).
(* indicator.hpp:58-71 *)
Definition indicator_setPeriod (tw iw : Z) (f : four) (period duty : Z) : four :=
  let duty := if duty >? 100 then 100 else duty in
  let l1 := wrap tw (u32 (period * duty) / 100) in
  let l1 := shorten tw l1 (u32 (tadd tw iw (f0 f) (f2 f))) in
  {| f0 := f0 f; f1 := l1; f2 := f2 f; f3 := wrap tw (period - l1) |}.
(* indicator.hpp:73-84 *)
Definition indicator_setFadeTimes (tw iw : Z) (f : four) (on off : Z) : four :=
  let l1 := wrap tw (f1 f + tadd tw iw (f0 f) (f2 f)) in
  {| f0 := on; f1 := shorten tw l1 (u32 (tadd tw iw on off)); f2 := off; f3 := f3 f |}.
(* strobe.hpp:44-54: lengths of the eight frames *)
Record eight := { s0 : Z; s1 : Z; s2 : Z; s3 : Z; s4 : Z; s5 : Z; s6 : Z; s7 : Z }.
(* strobe.hpp:44-54 *)
Definition strobe_new : eight := {| s0 := 60; s1 := 40; s2 := 90; s3 := 110; s4 := 60; s5 := 40; s6 := 90; s7 := 510 |}.
(* with <=; strobe.hpp:73-74,99-100 *)
Definition shorten_le (tw l fade : Z) : Z := if l <=? fade then 0 else wrap tw (l - fade).
(* strobe.hpp:60-88; remaining is a uint8_t *)
Definition strobe_setPeriod (tw iw : Z) (s : eight) (period d1 d2 d3 : Z) : eight * bool :=
  let d1 := if d1 >? 100 then 100 else d1 in
  let remaining := u8 (100 - d1) in
  let l1 := wrap tw (u32 (period * d1) / 100) in
  let fade := u32 (tadd tw iw (s0 s) (s2 s)) in
  let l1 := shorten_le tw l1 fade in
  if d2 >? remaining then ({| s0 := s0 s; s1 := l1; s2 := s2 s; s3 := s3 s; s4 := s4 s; s5 := s5 s; s6 := s6 s; s7 := s7 s |}, false)
  else
    let remaining := u8 (remaining - d2) in
    let l3 := wrap tw (u32 (period * d2) / 100) in
    if d3 >? remaining then ({| s0 := s0 s; s1 := l1; s2 := s2 s; s3 := l3; s4 := s4 s; s5 := s5 s; s6 := s6 s; s7 := s7 s |}, false)
    else
      let l5 := wrap tw (u32 (period * d3) / 100) in
      let l1 := if l5 <=? fade then 0 else l1 in
      let l5 := if l5 <=? fade then l5 else wrap tw (l5 - fade) in
      ({| s0 := s0 s; s1 := l1; s2 := s2 s; s3 := l3; s4 := s4 s; s5 := l5; s6 := s6 s;
          s7 := wrap tw (u32 (period - u32 (fade * 2) - l1 - l5)) |}, true).
(* strobe.hpp:90-107 *)
Definition strobe_setFadeTimes (tw iw : Z) (s : eight) (on off : Z) : eight :=
  let fade := u32 (tadd tw iw on off) in
  let l1 := wrap tw (s1 s + tadd tw iw (s0 s) (s2 s)) in
  let l5 := wrap tw (s5 s + tadd tw iw (s4 s) (s6 s)) in
  {| s0 := on; s1 := shorten_le tw l1 fade; s2 := off; s3 := s3 s; s4 := on; s5 := shorten_le tw l5 fade; s6 := off; s7 := s7 s |}.
