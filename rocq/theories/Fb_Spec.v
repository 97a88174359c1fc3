(** How framebuffers, pools and shared buffers are to be used. *)
From Verif Require Import Common Pixels_Model Fb_Model.

(** Balance of a sequence: how many references (holds) its owners have. *)
Definition refs (ops : list fb_op) : Z :=
  1 + fold_right (fun o n => (match o with Ref => 1 | Unref => -1 | _ => 0 end) + n) 0 ops.
Definition holds (ops : list fb_op) : Z :=
  fold_right (fun o n => (match o with Hold => 1 | Release => -1 | _ => 0 end) + n) 0 ops.

(** Owners drop only what they have: each call is made while somebody has a
    reference, each release while there is a hold. *)
Definition used_right (ops : list fb_op) : Prop :=
  forall pre o post, ops = pre ++ o :: post -> 0 < refs pre /\ (o = Release -> 0 < holds pre).

(** How often the last hold was released. *)
Fixpoint last_releases (held : Z) (ops : list fb_op) : Z :=
  match ops with
  | [] => 0
  | Hold :: ops => last_releases (held + 1) ops
  | Release :: ops => (if held =? 1 then 1 else 0) + last_releases (held - 1) ops
  | _ :: ops => last_releases held ops
  end.

(** ** The pool as its users see it *)

(** Where an acquired framebuffer is: in the hands of whoever acquired it, not
    held yet; held so many times; or given back, by releasing the last hold. *)
Inductive phase := Acquired | Held (n : Z) | Returned.

(** References users have to the pool, the geometry last asked for, and for each
    framebuffer references and phase. *)
Record users := mk_u { u_pool : Z; u_geo : geometry; u_fbs : list (Z * phase) }.

Fixpoint update {A} (l : list A) (n : nat) (f : A -> A) : list A :=
  match l, n with
  | [], _ => []
  | x :: l, O => f x :: l
  | x :: l, S n => x :: update l n f
  end.

(** What a call does to the users' holdings; [got] is what an Acquire returned.
    None: a call not allowed.  Allowed are calls through a reference the caller
    has; holds only from acquiring to giving back; releases of holds. *)
Definition allowed (u : users) (o : pool_op) (got : option nat) : option users :=
  let fb i ok f := match nth_error (u_fbs u) i with
                   | Some (r, ph) => if (0 <? r) && ok ph then Some (mk_u (u_pool u) (u_geo u) (update (u_fbs u) i f)) else None
                   | None => None
                   end in
  match o with
  | PoolRef => if 0 <? u_pool u then Some (mk_u (u_pool u + 1) (u_geo u) (u_fbs u)) else None
  | PoolUnref => if 0 <? u_pool u then Some (mk_u (u_pool u - 1) (u_geo u) (u_fbs u)) else None
  | Resize g => if 0 <? u_pool u then Some (mk_u (u_pool u) g (u_fbs u)) else None
  | Acquire =>
      if 0 <? u_pool u then
        match got with
        | None => None
        | Some i =>
            if Nat.eqb i (length (u_fbs u)) then Some (mk_u (u_pool u) (u_geo u) (u_fbs u ++ [(1, Acquired)]))
            else Some (mk_u (u_pool u) (u_geo u) (update (u_fbs u) i (fun s => (fst s + 1, Acquired))))
        end
      else None
  | FbRef i => fb i (fun _ => true) (fun s => (fst s + 1, snd s))
  | FbUnref i => fb i (fun _ => true) (fun s => (fst s - 1, snd s))
  | FbHold i => fb i (fun ph => match ph with Returned => false | _ => true end)
                  (fun s => (fst s, Held (match snd s with Held n => n + 1 | _ => 1 end)))
  | FbRelease i => fb i (fun ph => match ph with Held _ => true | _ => false end)
                     (fun s => (fst s, match snd s with Held n => if n =? 1 then Returned else Held (n - 1) | p => p end))
  end.

(** Executions in which every call is allowed. *)
Inductive runs (g : geometry) : world -> users -> Prop :=
| start : runs g (pool_new g) (mk_u 1 g [])
| then_ : forall w u o w' got u', runs g w u -> pool_step w o = Ok (w', got) -> allowed u o got = Some u' -> runs g w' u'.

(** A call allowed in the users' present state, whatever an Acquire returns. *)
Definition may (u : users) (o : pool_op) : Prop :=
  match o with
  | Acquire => 0 < u_pool u
  | _ => allowed u o None <> None
  end.

(** ** Sizes *)

(** Bytes per pixel of packed RGB formats, as drm_fourcc.h defines them. *)
Definition rgb_formats : list (string * Z) :=
  map (fun n => (n, 4)) ["RA30"; "RX30"; "BA30"; "BX30"; "AR30"; "XR30"; "AB30"; "XB30";
                         "RA24"; "RX24"; "BA24"; "BX24"; "AR24"; "XR24"; "AB24"; "XB24"]%string ++
  map (fun n => (n, 3)) ["RG24"; "BG24"]%string ++
  map (fun n => (n, 2)) ["RA12"; "RX12"; "BA12"; "BX12"; "AR12"; "XR12"; "AB12"; "XB12"]%string.

(** Further ones. *)
Definition other_formats : list (string * Z) := map (fun n => (n, 2)) ["RG16"; "BG16"; "XR15"; "AR15"]%string.
