(** The interpreter of Interp.v with two properties of the machine left open that Interp.v fixes: the
    order of the bytes of a scalar in memory, and the width of [size_t].

    The byte order is observable only where the source copies object representations: the calls of
    [memcpy] in the vreinterpret functions (neon_sim.cpp:4009-4214) and in [struct float_parts]
    (neon_sim.cpp:4306, 4330).  [size_t] is 64 bits wide on the usual 64-bit machines and 32 bits wide on
    32-bit ones (armv7, x86, wasm32).  In the source it is the type of loop counters, [for (size_t i = 0;
    ...)] (e.g. neon_sim.cpp:1288), and of [sizeof] in the third argument of [memcpy].  In the model [SFor
    U64] comes from a counter of type [size_t] and from nothing else, as the source has no counter of type
    [uint64_t]; the product of [sizeof] and a literal is used as a number of bytes only, and left as it
    is.  Everything else is as in Interp.v, whose definitions are used. *)
From Coq Require Import ZArith List String Bool.
From Verif Require Import Types FloatBits Syntax Interp ProgRecip.
Import ListNotations.
Open Scope Z_scope.

Record host := mkhost {
  big_endian : bool;
  size_t : sty
}.

(** [size_t] is an unsigned type of 32 or 64 bits. *)
Definition real_host (h : host) : Prop := size_t h = U32 \/ size_t h = U64.

(** The machine Interp.v is written for. *)
Definition this_host : host := mkhost false U64.

(** The [n] bytes of a scalar in the order of their addresses. *)
Definition host_bytes (big : bool) (n : nat) (z : Z) : list Z :=
  if big then rev (le_bytes n z) else le_bytes n z.
Definition of_host_bytes (big : bool) (l : list Z) : Z :=
  of_le_bytes (if big then rev l else l).

(** The object representation, as [bytes_of] in Interp.v. *)
Fixpoint bytes_of_h (big : bool) (o : obj) : list (option Z) :=
  match o with
  | OScal t (Some z) => map Some (host_bytes big (nbytes t) z)
  | OScal t None => repeat None (nbytes t)
  | OArr l => flat_map (bytes_of_h big) l
  | OPtr _ _ _ => []
  end.

(** As [from_bytes] in Interp.v. *)
Fixpoint from_bytes_h (big : bool) (o : obj) (bs : list (option Z)) {struct o}
  : obj * list (option Z) :=
  match o with
  | OScal t _ =>
      (OScal t (match all_some (firstn (nbytes t) bs) with
                | Some l => Some (wrap t (of_host_bytes big l))
                | None => None
                end),
       skipn (nbytes t) bs)
  | OArr l =>
      let go := fix go (l : list obj) (bs : list (option Z)) :=
        match l with
        | [] => ([], bs)
        | o' :: l' =>
            let (x, bs1) := from_bytes_h big o' bs in
            let (xs, bs2) := go l' bs1 in (x :: xs, bs2)
        end in
      let (xs, bs') := go l bs in (OArr xs, bs')
  | OPtr t b off => (o, bs)
  end.

Definition memcpy_obj_h (big : bool) (dst src : obj) (n : Z) : res obj :=
  let bd := bytes_of_h big dst in
  let bs := bytes_of_h big src in
  if (0 <=? n) && (n <=? Z.of_nat (List.length bd)) && (n <=? Z.of_nat (List.length bs))
  then let k := Z.to_nat n in
       Ok (fst (from_bytes_h big dst (firstn k bs ++ skipn k bd)))
  else Err (EUB OutOfBounds).

Section Stmt.
  Variable h : host.
  Variable c : cfg.
  Variable callf : string -> obj -> res obj.
  Variable fuel : nat.

  (** The type of a loop counter. *)
  Definition counter (t : sty) : sty := match t with U64 => size_t h | _ => t end.

  Fixpoint exec_h (s : stmt) (en : env) (m : memory) : res ctl :=
    match s with
    | SSkip => Ok (Normal en m)
    | SSeq s1 s2 =>
        let* r := exec_h s1 en m in
        match r with
        | Normal en' m' => exec_h s2 en' m'
        | Returned _ _ => Ok r
        end
    | SDecl t y None => Ok (Normal ((y, fresh t) :: en) m)
    | SDecl t y (Some e) =>
        let* o := eval c callf en m e in
        let* o' := init_obj c t o in
        Ok (Normal ((y, o') :: en) m)
    | SAssign y path e =>
        let* ks := eval_path c callf en m path in
        let* v := eval c callf en m e in
        let* r := assign c en m y ks v in
        Ok (Normal (fst r) (snd r))
    | SIf e s1 s2 =>
        let* o := eval c callf en m e in
        let* b := cond_value o in
        let* r := (if b then exec_h s1 en m else exec_h s2 en m) in
        Ok (pop_ctl (List.length en) r)
    | SFor t i init cond next body =>
        let* o := eval c callf en m init in
        let* o' := init_obj c (TScal (counter t)) o in
        let en0 := (i, o') :: en in
        let* r :=
          loop fuel
            (fun en m => let* o := eval c callf en m cond in cond_value o)
            (fun en m =>
               let* r := exec_h body en m in
               match pop_ctl (List.length en) r with
               | Normal en' m' =>
                   let* v := eval c callf en' m' next in
                   let* r := assign c en' m' i [] v in
                   Ok (Normal (fst r) (snd r))
               | Returned v m' => Ok (Returned v m')
               end)
            en0 m in
        Ok (pop_ctl (List.length en) r)
    | SMemcpy dst src n =>
        let* o := eval c callf en m n in
        let* k := int_value o in
        match lookup dst en, lookup src en with
        | Some od, Some os =>
            let* od' := memcpy_obj_h (big_endian h) od os k in
            Ok (Normal (update dst od' en) m)
        | _, _ => Err EStuck
        end
    | SAbort => Err EAbort
    | SReturn e => let* o := eval c callf en m e in Ok (Returned o m)
    end.

  Definition run_body_h (f : func) (args : list obj) (m : memory) : res (option obj * memory) :=
    let* en := bind_params c (f_params f) args in
    let* r := exec_h (f_body f) en m in
    match r, f_ret f with
    | Returned _ _, TVoid => Err EStuck
    | Returned v m', t => let* v' := init_obj c t v in Ok (Some v', m')
    | Normal _ m', TVoid => Ok (None, m')
    | Normal _ _, _ => Err (EUB MissingReturn)
    end.
End Stmt.

Fixpoint call_helper_h (h : host) (c : cfg) (prog : list func) (fuel : nat) (depth : nat)
  (name : string) (a : obj) : res obj :=
  match depth with
  | O => Err EStuck
  | S d =>
      match find (fun f => String.eqb (f_name f) name) prog with
      | None => Err EStuck
      | Some f =>
          let* r := run_body_h h c (call_helper_h h c prog fuel d) fuel f [a] [] in
          match fst r with Some v => Ok v | None => Err EStuck end
      end
  end.

(** A call on the machine [h]. *)
Definition run_host (h : host) (c : cfg) (m : memory) (f : func) (args : list obj) : outcome :=
  outcome_of (run_body_h h c (call_helper_h h c helpers loop_fuel call_depth) loop_fuel f args m).
