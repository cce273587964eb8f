(** Specification for C118: a dictionary whose allocations may fail. *)
From Verif Require Import CBase PropsSpec Blocks BlocksSpec DictMem.

(** The calls of a program.  The values trax_properties_get returns are freed by the program. *)
Inductive dcall :=
| DSet (k v : list N)
| DAppend (overwrite : bool) (l : list (list N * list N))
| DGet (k : list N)
| DHas (k : list N)
| DCount
| DList
| DClear.
Inductive answer := ANothing | AText (t : option (list N)) | ABool (b : bool) | ACount (n : nat) | APairs (l : list (list N * list N)).
Definition answered (d : dict) (f : am answer) : am (dict * answer) := a <== f ;; aret (d, a).
Definition changed (f : am dict) : am (dict * answer) := d <== f ;; aret (d, ANothing).
Definition got (r : option (nat * list N)) : am answer :=
  match r with None => aret (AText None) | Some (x, t) => afree x ;=; aret (AText (Some t)) end.
Definition do_dcall (d : dict) (c : dcall) : am (dict * answer) :=
  match c with
  | DSet k v => changed (dict_set d k v)
  | DAppend o l => changed (dict_append o d l)
  | DGet k => answered d (r <== dict_get d k ;; got r)
  | DHas k => answered d (b <== dict_has d k ;; aret (ABool b))
  | DCount => answered d (n <== dict_count d ;; aret (ACount n))
  | DList => answered d (l <== dict_enum d ;; aret (APairs l))
  | DClear => changed (dict_clear d)
  end.
(** All calls in order: the answers, and whether every allocation of the call succeeded *)
Fixpoint do_dcalls (d : dict) (l : list dcall) : am (dict * list (answer * bool)) :=
  match l with
  | [] => aret (d, [])
  | c :: l' =>
      fun w =>
        r <- do_dcall d c w ;;
        r' <- do_dcalls (fst (fst r)) l' (snd r) ;;
        Ok ((fst (fst r'), (snd (fst r), Nat.eqb (w_failed w) (w_failed (snd r))) :: snd (fst r')), snd r')
  end.

(** What it means: a finite map, and whether the dictionary can store anything *)
Record shadow := mkShadow { sh_alive : bool; sh_map : pmap }.
Definition merged (overwrite : bool) (f : pmap) (l : list (list N * list N)) : pmap :=
  fun k => match find (fun kv => bytes_eqb (fst kv) k) l with
           | Some kv => if overwrite then Some (snd kv) else match f k with Some v => Some v | None => Some (snd kv) end
           | None => f k
           end.
(** One call: [ok] says that all its allocations succeeded *)
Definition explains (s : shadow) (c : dcall) (ok : bool) (a : answer) (s' : shadow) : Prop :=
  let f := sh_map s in let f' := sh_map s' in
  match c with
  | DSet k v => a = ANothing /\ sh_alive s' = sh_alive s /\ forall k', f' k' = (if sh_alive s && ok then pm_set f k v else f) k'
  | DAppend o l => a = ANothing /\ sh_alive s' = sh_alive s /\ (forall k', f' k' = f k' \/ f' k' = merged o f l k') /\
                   (sh_alive s = true -> ok = true -> forall k', f' k' = merged o f l k')
  | DGet k => s' = s /\ a = AText (if ok then f k else None)
  | DHas k => s' = s /\ a = ABool (match f k with Some _ => true | None => false end)
  | DCount => s' = s /\ exists l, enumerates l f /\ a = ACount (List.length l)
  | DList => s' = s /\ exists l, enumerates l f /\ a = APairs l
  | DClear => a = ANothing /\ sh_alive s' = ok /\ forall k, f' k = None
  end.
Inductive explained : shadow -> list dcall -> list (answer * bool) -> Prop :=
| explained_nil s : explained s [] []
| explained_cons s c ok a s' l r : explains s c ok a s' -> explained s' l r -> explained s (c :: l) ((a, ok) :: r).
(** The pairs of another dictionary: no name occurs twice *)
Definition dcall_ok (c : dcall) : Prop := match c with DAppend _ l => NoDup (map fst l) | _ => True end.
(** A memory with blocks in use, and a plan for the allocations *)
Definition world_ok (w : world) : Prop := mem_ok (w_mem w).
(** A program that makes a dictionary, uses it and releases it: the answers and the memory afterwards *)
Definition dict_life (l : list dcall) : am (list (answer * bool)) :=
  d <== dict_create ;; r <== do_dcalls d l ;; dict_release (fst r) ;=; aret (snd r).
Definition fresh_world (plan : list bool) : world := mkWorld (mkMem 0 []) plan 0.
(** The first allocation fails *)
Definition no_memory_at_all (w : world) : Prop := exists p, w_plan w = false :: p.
