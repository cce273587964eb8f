(** Specification of the memory of Python programs: objects are collected in any order *)
From Verif Require Import CBase Message Handle Blocks BlocksSpec PyLife.
Local Open Scope Z_scope.

(** Objects of a program, numbered; None: collected *)
Inductive pvar := VImage (i : img) | VRegion (r : rgn) | VProps (p : nat).
Record pstate := mkPstate { s_thunk : option nat; s_handle : option conn; s_vars : list (option pvar); s_messages : list amsg }.
(** What a program does; Collect can come at any time.  Images are given for each of the channels *)
Inductive pop :=
| MakeImage | MakeRegion (k : rkind) | MakeProps
| Collect (i : nat)
| Read (i : nat)
| Get (i : nat) (present : bool)
| Send (first reason : bool) (images : list (option nat)) (objects : list nat)
| Wait
| Status (objects : list nat)
| Quit.
(** Blocks of an object *)
Definition collect (v : pvar) : mm unit :=
  match v with VImage i => release_image i | VRegion r => release_region (Some r) | VProps p => free p end.
Definition read (v : pvar) : mm unit :=
  match v with VImage i => touch (j_block i) ;;; touch (j_data i) | VRegion r => touch (g_block r) | VProps p => touch p end.
Definition object (vars : list (option pvar)) (i : nat) : option pvar := match nth_error vars i with Some v => v | None => None end.
Fixpoint gone (i : nat) (vars : list (option pvar)) : list (option pvar) :=
  match vars, i with [], _ => [] | _ :: l, O => None :: l | v :: l, S i => v :: gone i l end.
(** The images and regions a call refers to; None if one is collected or something else *)
Fixpoint images_of (vars : list (option pvar)) (l : list (option nat)) : option (list (option img)) :=
  match l with
  | [] => Some []
  | x :: l =>
      match x, images_of vars l with
      | None, Some r => Some (None :: r)
      | Some i, Some r => match object vars i with Some (VImage j) => Some (Some j :: r) | _ => None end
      | _, None => None
      end
  end.
Fixpoint regions_of (vars : list (option pvar)) (l : list nat) : option (list rgn) :=
  match l with
  | [] => Some []
  | i :: l => match object vars i, regions_of vars l with Some (VRegion g), Some r => Some (g :: r) | _, _ => None end
  end.
Definition sent_b (regions : list rkind) (k : rkind) : bool :=
  negb (has_kind k [KSpecial]) && existsb (fun r => negb (has_kind r [KSpecial])) regions && (has_kind k regions || negb (has_kind KMask regions) || has_kind k [KRect]).
Definition more (st : pstate) (l : list pvar) : pstate := mkPstate (s_thunk st) (s_handle st) (s_vars st ++ map Some l) (s_messages st).
(** One step.  Programs use objects that are still there, of the type that is asked for; regions that can be sent (C102); and a server
    waits while alive *)
Definition pstep (op : pop) (st : pstate) : mm pstate :=
  match op with
  | MakeImage => i <-- new_image ;; mret (more st [VImage i])
  | MakeRegion k => r <-- make_region k ;; mret (more st [VRegion r])
  | MakeProps => p <-- new ;; mret (more st [VProps p])
  | Collect i =>
      match object (s_vars st) i with
      | Some v => collect v ;;; mret (mkPstate (s_thunk st) (s_handle st) (gone i (s_vars st)) (s_messages st))
      | None => mret st
      end
  | Read i => match object (s_vars st) i with Some v => read v ;;; mret st | None => mret st end
  | Get i present => match object (s_vars st) i with Some (VProps p) => properties_get p present ;;; mret st | _ => mret st end
  | Send first reason images objects =>
      match s_handle st, images_of (s_vars st) images, regions_of (s_vars st) objects with
      | Some h, Some given, Some rs =>
          if negb (c_server h) && forallb (fun r => sent_b (c_regions h) (g_kind r)) rs then
            r <-- client_send (s_thunk st) first reason h given rs (s_messages st) ;;
            let '(h, k, l) := r in mret (more (mkPstate (s_thunk st) (Some h) (s_vars st) l) (map VRegion k))
          else mret st
      | _, _, _ => mret st
      end
  | Wait =>
      match s_handle st with
      | Some h =>
          if c_server h && negb (c_dead h) then
            r <-- server_wait (s_thunk st) h (s_messages st) ;;
            let '(h, (i, r, p), l) := r in
            mret (more (mkPstate (s_thunk st) (Some h) (s_vars st) l) (map VImage i ++ map VRegion r ++ map VProps p))
          else mret st
      | None => mret st
      end
  | Status objects =>
      match s_handle st, regions_of (s_vars st) objects with
      | Some h, Some rs =>
          if c_server h then h <-- server_status (s_thunk st) h rs ;; mret (mkPstate (s_thunk st) (Some h) (s_vars st) (s_messages st)) else mret st
      | _, _ => mret st
      end
  | Quit =>
      match s_handle st with
      | Some h => c <-- session_quit (s_thunk st) h ;; mret (mkPstate (s_thunk st) c (s_vars st) (s_messages st))
      | None => mret st
      end
  end.
Fixpoint psteps (ops : list pop) (st : pstate) : mm pstate :=
  match ops with [] => mret st | op :: ops => st <-- pstep op st ;; psteps ops st end.
(** The end: what is left is collected, the session object as well *)
Definition pend (st : pstate) : mm unit :=
  delete (s_thunk st) (s_handle st) ;;; each (fun v => match v with Some v => collect v | None => mret tt end) (s_vars st).
Definition prun (c : mm (option (option nat * conn))) (ops : list pop) (l : list amsg) : mm unit :=
  r <-- c ;; match r with None => mret tt | Some (t, h) => st <-- psteps ops (mkPstate t (Some h) [] l) ;; pend st end.

(** Programs without Properties.get, with clients that are not told reasons *)
Definition no_get (op : pop) : Prop := match op with Get _ true | Send _ true _ _ => False | _ => True end.
(** A session with a logger ends with quit *)
Definition quits (logger : bool) (ops : list pop) : Prop := logger = true -> exists before, ops = before ++ [Quit].
Definition sample_client_ops : list pop :=
  [MakeImage; MakeRegion KRect; MakeProps; Send true false [Some 0; None; None] [1]; Collect 1; Read 3; Collect 2; Send false false [Some 0] [];
   Send true false [] [3]; MakeRegion KMask; Collect 0; Collect 0; Status [3]; Send false false [] [3; 5]; Quit; Send true false [] [3]; Quit]%nat.
Definition sample_server_ops : list pop :=
  [Wait; Collect 0; Status [1; 2]; Wait; Collect 3; MakeRegion KPoly; Status [1; 4]; Wait; Read 1; Wait; Quit; Quit]%nat.
Definition sample_answers : list amsg := [state_message (PRegion KRect); state_message (PRegion KPoly); mkMsg TRAX_FRAME []; state_message PFail].
Definition greeting : hello := Hello true true true true [true].
