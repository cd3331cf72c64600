(** What a watchdog is to do, in terms of the calls, the reports and the clock. *)
From Coq Require Import String.
From Verif Require Import Base ReactorModel DogModel.
Local Open Scope Z_scope.

(** Nothing of a call's events but clearing of messages. *)
Definition quiet (l : list wevent) : Prop := Forall (fun e => e = HClear) l.
(** The report [m] at [t] ns belongs to a call in progress with a timeout that had gone by, counted in ms since start_timer, with no
    other report for it. *)
Definition justified (before : list wevent) (m : string) (t : Z) : Prop :=
  exists l1 name timeout start ms l2,
    before = l1 ++ HBegan name timeout start ms :: l2 /\ quiet l2 /\ 0 < timeout /\
    m = String.append name " | Watchdog timed out" /\ start / 10 ^ 6 <= ms /\ ms + timeout <= t / 10 ^ 6.
(** The messages shown after the events. *)
Definition shown (m : string) (l : list wevent) : Prop := exists l1 t l2, l = l1 ++ HReport m t :: l2 /\ ~ In HClear l2.

(** A worker that is at most [e] ms late: all it does between the start of one turn over the timers and the sleep that follows takes
    up to [e] ms, and it wakes up to [e] ms after it was to.  [p]: when the last turn began (at first: when the constructor
    returned); [l]: how late it is.  No signal interrupts its sleep. *)
Definition late (a : wlabel) (w w' : wd) (p l : Z) : Z * Z :=
  match a with
  | WTimeout => (r_now (w_r w'), 0)
  | WTime d =>
    match r_phase (w_r w) with
    | Poll deadline => (p, Z.max 0 (r_now (w_r w') - deadline))
    | Done _ => (p, 0)
    | _ => (p, l + (r_now (w_r w') - r_now (w_r w)))
    end
  | _ => (p, l + (r_now (w_r w') - r_now (w_r w)))
  end.
Inductive prun (e g ns : Z) : wd -> Z -> Z -> Prop :=
| pr_init : prun e g ns (winit g ns) (ns / 10 ^ 6) 0
| pr_step w p l a w' p' l' : prun e g ns w p l -> wstep a w = Some w' -> late a w w' p l = (p', l') -> l' <= e -> a <> WInterrupt -> prun e g ns w' p' l'.
(** Runs in which no signal interrupts the worker's sleep. *)
Inductive crun (g ns : Z) : wd -> Prop :=
| cr_init : crun g ns (winit g ns)
| cr_step w a w' : crun g ns w -> wstep a w = Some w' -> a <> WInterrupt -> crun g ns w'.
(** Neither reported nor finished. *)
Definition unanswered (l : list wevent) : Prop := forall e, In e l -> match e with HReport _ _ | HDone _ => False | _ => True end.
(** What may follow. *)
Inductive wmore (w : wd) : wd -> Prop :=
| wm_refl : wmore w w
| wm_step u a v : wmore w u -> wstep a u = Some v -> wmore w v.
