(** An abstract interpreter for the fragment, over intervals.

    It follows [Interp] construct by construct, but computes with sets of values: an
    interval per scalar, a list of alternatives per result, and the list of the errors
    that may occur.  Nothing here models code of /repo; [AbsSound] proves that every
    concrete execution is covered.  The functions are applied to the whole library in
    [P_Meta]. *)
From Coq Require Import ZArith List String Bool.
From Verif Require Import Types FloatBits Syntax Interp ProgRecip.
Import ListNotations.
Open Scope Z_scope.

(** ** Abstract objects *)

(** - [AScal t ini l h]: a scalar of type [t], between [l] and [h]; initialised if [ini];
    - [APtr t k rd]: a pointer to elements of type [t] of which the next [k] exist, and
      are initialised if [rd]; nothing is known if [k] is negative. *)
Inductive aobj :=
| AScal (t : sty) (ini : bool) (l h : Z)
| AArr (l : list aobj)
| APtr (t : sty) (k : Z) (rd : bool).

Definition aenv : Type := list (string * aobj).

(** Alternatives and possible errors. *)
Definition ar (A : Type) : Type := (list A * list err)%type.

Definition ub_eqb (a b : ub) : bool :=
  match a, b with
  | SignedOverflow, SignedOverflow | BadShift, BadShift | OutOfBounds, OutOfBounds
  | Uninitialised, Uninitialised | FloatCast, FloatCast | DivByZero, DivByZero
  | MissingReturn, MissingReturn => true
  | _, _ => false
  end.
Definition err_eqb (a b : err) : bool :=
  match a, b with
  | EUB k, EUB k' => ub_eqb k k'
  | EAbort, EAbort | ETimeout, ETimeout | EStuck, EStuck => true
  | _, _ => false
  end.
Definition adde (l l' : list err) : list err :=
  fold_right (fun e acc => if existsb (err_eqb e) acc then acc else e :: acc) l' l.

Definition aret {A} (a : A) : ar A := ([a], []).
Definition afail {A} (e : err) : ar A := ([], [e]).

Fixpoint abinds {A B} (l : list A) (f : A -> ar B) : ar B :=
  match l with
  | [] => ([], [])
  | a :: l' =>
      let r := f a in
      match l' with
      | [] => r
      | _ => let r' := abinds l' f in (fst r ++ fst r', adde (snd r) (snd r'))
      end
  end.
Definition abind {A B} (r : ar A) (f : A -> ar B) : ar B :=
  let r' := abinds (fst r) f in (fst r', adde (snd r) (snd r')).

(** ** Joins *)

Fixpoint ajoin (a b : aobj) {struct a} : option aobj :=
  match a, b with
  | AScal t i l h, AScal t' i' l' h' =>
      if sty_eqb t t' then Some (AScal t (i && i') (Z.min l l') (Z.max h h')) else None
  | AArr la, AArr lb =>
      match (fix go (la lb : list aobj) : option (list aobj) :=
               match la, lb with
               | [], [] => Some []
               | x :: la', y :: lb' =>
                   match ajoin x y, go la' lb' with
                   | Some z, Some l => Some (z :: l)
                   | _, _ => None
                   end
               | _, _ => None
               end) la lb with
      | Some l => Some (AArr l)
      | None => None
      end
  | APtr t k rd, APtr t' k' rd' =>
      if sty_eqb t t' then Some (APtr t (Z.min k k') (rd && rd')) else None
  | _, _ => None
  end.

Fixpoint ejoin (a b : aenv) : option aenv :=
  match a, b with
  | [], [] => Some []
  | (x, o) :: a', (y, o') :: b' =>
      if String.eqb x y then
        match ajoin o o', ejoin a' b' with
        | Some u, Some r => Some ((x, u) :: r)
        | _, _ => None
        end
      else None
  | _, _ => None
  end.

(** Merge neighbours that can be joined. *)
Fixpoint compact {A} (j : A -> A -> option A) (l : list A) : list A :=
  match l with
  | [] => []
  | a :: l' =>
      match compact j l' with
      | [] => [a]
      | b :: r => match j a b with Some u => u :: r | None => a :: b :: r end
      end
  end.

(** ** Scalars *)

Definition itv : Type := (Z * Z)%type.
Definition full (t : sty) : itv := (lo t, hi t).
Definition within (t : sty) (i : itv) : bool := (lo t <=? fst i) && (snd i <=? hi t).

Definition ascalar (o : aobj) : ar (sty * itv) :=
  match o with
  | AScal t ini l h => ([(t, (l, h))], if ini then [] else [EUB Uninitialised])
  | _ => afail EStuck
  end.

Definition av (t : sty) (i : itv) : aobj := AScal t true (fst i) (snd i).

Definition aconvert (from to : sty) (i : itv) : ar itv :=
  if sty_eqb from to then aret i
  else if is_float from then
    if is_float to then aret (full to) else ([full to], [EUB FloatCast])
  else if is_float to then aret (full to)
  else if within to i then aret i else aret (full to).

Definition aarith (wv : bool) (t : sty) (i : itv) : ar itv :=
  if within t i then aret i
  else if is_signed t && negb wv then ([full t], [EUB SignedOverflow])
  else aret (full t).

Definition a01 : aobj := AScal I32 true 0 1.
Definition abool (b : bool) : aobj := AScal I32 true (if b then 1 else 0) (if b then 1 else 0).

(** The truth values of a scalar. *)
Definition atruth (p : sty * itv) : list bool :=
  let '(t, (l, h)) := p in
  if is_float t then [true; false]
  else if (0 <? l) || (h <? 0) then [true]
  else if (0 <=? l) && (h <=? 0) then [false]
  else [true; false].

Definition acond (o : aobj) : ar bool := abind (ascalar o) (fun p => (atruth p, [])).

Definition alt (x y : itv) : aobj :=
  if snd x <? fst y then abool true else if snd y <=? fst x then abool false else a01.
Definition ale (x y : itv) : aobj :=
  if snd x <=? fst y then abool true else if snd y <? fst x then abool false else a01.
Definition aeq (x y : itv) : aobj :=
  if (fst x =? snd x) && (fst y =? snd y) && (fst x =? fst y) then abool true
  else if (snd x <? fst y) || (snd y <? fst x) then abool false else a01.
Definition ane (x y : itv) : aobj :=
  if (fst x =? snd x) && (fst y =? snd y) && (fst x =? fst y) then abool false
  else if (snd x <? fst y) || (snd y <? fst x) then abool true else a01.

Definition acompare (op : binop) (x y : itv) : aobj :=
  match op with
  | BLt => alt x y | BGt => alt y x | BLe => ale x y | BGe => ale y x
  | BEq => aeq x y | _ => ane x y
  end.

Definition imul (x y : itv) : itv :=
  let '(a, b) := x in let '(u, v) := y in
  (Z.min (Z.min (a * u) (a * v)) (Z.min (b * u) (b * v)),
   Z.max (Z.max (a * u) (a * v)) (Z.max (b * u) (b * v))).

(** Quotient and remainder: precise for a non-negative dividend and a positive divisor. *)
Definition aquot (wv : bool) (t : sty) (x y : itv) : ar aobj :=
  if (0 <=? fst x) && (0 <? fst y) then
    abind (aarith wv t (Z.quot (fst x) (snd y), Z.quot (snd x) (fst y))) (fun i => aret (av t i))
  else ([av t (full t)], [EUB DivByZero; EUB SignedOverflow]).
Definition arem (wv : bool) (t : sty) (x y : itv) : ar aobj :=
  if (0 <=? fst x) && (0 <? fst y) && within t x then aret (av t (0, Z.min (snd x) (snd y - 1)))
  else afail EStuck.

(** The smallest 2^k - 1 that is at least [z]. *)
Definition mask_of (z : Z) : Z := 2 ^ (Z.log2 (Z.max z 1) + 1) - 1.

Definition aland (t : sty) (x y : itv) : ar aobj :=
  if (0 <=? fst x) && (0 <=? fst y) then aret (av t (0, Z.min (snd x) (snd y)))
  else if 0 <=? fst x then aret (av t (0, snd x))
  else if 0 <=? fst y then aret (av t (0, snd y))
  else if within t x && within t y then aret (av t (full t)) else afail EStuck.
Definition alor (t : sty) (x y : itv) : ar aobj :=
  if (0 <=? fst x) && (0 <=? fst y) then aret (av t (0, mask_of (Z.max (snd x) (snd y))))
  else if within t x && within t y then aret (av t (full t)) else afail EStuck.

Definition ashl (wv : bool) (t : sty) (x n : itv) : ar itv :=
  if (0 <=? fst n) && (snd n <? width t) then
    let top := snd x * 2 ^ snd n in
    ([if (0 <=? fst x) && (top <=? hi t) then (fst x * 2 ^ fst n, top) else full t],
     if negb (is_signed t) || wv || ((0 <=? fst x) && (top <? modulus t)) then [] else [EUB BadShift])
  else ([full t], [EUB BadShift]).

Definition ashr (t : sty) (x n : itv) : ar itv :=
  if (0 <=? fst n) && (snd n <? width t) then
    aret ((if 0 <=? fst x then Z.shiftr (fst x) (snd n) else Z.shiftr (fst x) (fst n)),
          (if 0 <=? snd x then Z.shiftr (snd x) (fst n) else Z.shiftr (snd x) (snd n)))
  else ([(Z.min (fst x) 0, Z.max (snd x) 0)], [EUB BadShift]).

(** Floating-point results are not tracked, only that they are patterns of the type. *)
Definition afop (t : sty) (x y : itv) : ar aobj :=
  if within t x && within t y then aret (av t (full t)) else afail EStuck.

Definition abinary (wv : bool) (op : binop) (t1 : sty) (i1 : itv) (t2 : sty) (i2 : itv) : ar aobj :=
  match op with
  | BShl | BShr =>
      if is_float t1 || is_float t2 then afail EStuck else
      let t := promote t1 in
      abind (match op with BShl => ashl wv t i1 i2 | _ => ashr t i1 i2 end) (fun i => aret (av t i))
  | _ =>
      let t := usual t1 t2 in
      abind (aconvert t1 t i1) (fun x =>
      abind (aconvert t2 t i2) (fun y =>
      match op with
      | BAdd => if is_float t then afop t x y
                else abind (aarith wv t (fst x + fst y, snd x + snd y)) (fun i => aret (av t i))
      | BSub => if is_float t then afop t x y
                else abind (aarith wv t (fst x - snd y, snd x - fst y)) (fun i => aret (av t i))
      | BMul => if is_float t then afop t x y
                else abind (aarith wv t (imul x y)) (fun i => aret (av t i))
      | BDiv => if is_float t then afop t x y else aquot wv t x y
      | BRem => if is_float t then afail EStuck else arem wv t x y
      | BAnd => if is_float t then afail EStuck else aland t x y
      | BOr | BXor => if is_float t then afail EStuck else alor t x y
      | _ => if is_float t then aret a01 else aret (acompare op x y)
      end))
  end.

Definition aunary (wv : bool) (op : unop) (t : sty) (i : itv) : ar aobj :=
  match op with
  | UNot => if is_float t then afail EStuck else
            let t' := promote t in
            let j := (- snd i - 1, - fst i - 1) in
            aret (av t' (if within t' j then j else full t'))
  | UNeg => if is_float t then afail EStuck else
            let t' := promote t in
            abind (aarith wv t' (- snd i, - fst i)) (fun j => aret (av t' j))
  | ULNot => match atruth (t, i) with
             | [true] => aret (abool false)
             | [false] => aret (abool true)
             | _ => aret a01
             end
  end.

Definition aminmax (mx : bool) (t t1 : sty) (i1 : itv) (t2 : sty) (i2 : itv) : ar aobj :=
  if is_float t then afail EStuck else
  abind (aconvert t1 t i1) (fun x =>
  abind (aconvert t2 t i2) (fun y =>
  aret (av t (if mx then (Z.max (fst x) (fst y), Z.max (snd x) (snd y))
              else (Z.min (fst x) (fst y), Z.min (snd x) (snd y)))))).

(** ** Access *)

(** The elements whose index may lie in the interval, with their indices. *)
Definition aget {A} (l : list A) (i : itv) : ar (nat * A) :=
  if fst i =? snd i then
    if fst i <? 0 then afail (EUB OutOfBounds)
    else match nth_error l (Z.to_nat (fst i)) with
         | Some a => aret (Z.to_nat (fst i), a)
         | None => afail (EUB OutOfBounds)
         end
  else
    (filter (fun p => (fst i <=? Z.of_nat (fst p)) && (Z.of_nat (fst p) <=? snd i))
       (combine (seq 0 (List.length l)) l),
     if (0 <=? fst i) && (snd i <? Z.of_nat (List.length l)) then [] else [EUB OutOfBounds]).

Definition aindex (o : aobj) (i : itv) : ar aobj :=
  match o with
  | AArr l => let r := aget l i in (compact ajoin (map snd (fst r)), snd r)
  | APtr t k rd =>
      let v := if (0 <=? fst i) && (snd i <? k) then rd else false in
      ([AScal t v (lo t) (hi t)],
       (if (0 <=? fst i) && (snd i <? k) then [] else [EUB OutOfBounds]) ++
       (if k <? 0 then [EStuck] else []))
  | AScal _ _ _ _ => afail EStuck
  end.

Definition aint (o : aobj) : ar itv :=
  abind (ascalar o) (fun p => if is_float (fst p) then afail EStuck else aret (snd p)).

Section AExpr.
  Variable wv : bool.
  Variable acall : string -> aobj -> ar aobj.

  Fixpoint alookup (x : string) (en : aenv) : option aobj :=
    match en with
    | [] => None
    | (y, o) :: en' => if String.eqb x y then Some o else alookup x en'
    end.

  Fixpoint aeval (en : aenv) (e : expr) : ar aobj :=
    match e with
    | ELit t z => aret (AScal t true z z)
    | EVar x => match alookup x en with Some o => aret o | None => afail EStuck end
    | EIdx a i =>
        abind (aeval en a) (fun o =>
        abind (aeval en i) (fun oi =>
        abind (aint oi) (fun k => aindex o k)))
    | EUn op a =>
        abind (aeval en a) (fun o =>
        abind (ascalar o) (fun p => aunary wv op (fst p) (snd p)))
    | EBin op a b =>
        abind (aeval en a) (fun oa =>
        abind (ascalar oa) (fun pa =>
        abind (aeval en b) (fun ob =>
        abind (ascalar ob) (fun pb =>
        abinary wv op (fst pa) (snd pa) (fst pb) (snd pb)))))
    | EAndAlso a b =>
        abind (aeval en a) (fun oa =>
        abind (acond oa) (fun va =>
        if va then abind (aeval en b) (fun ob => abind (acond ob) (fun vb => aret (abool vb)))
        else aret (abool false)))
    | EOrElse a b =>
        abind (aeval en a) (fun oa =>
        abind (acond oa) (fun va =>
        if va then aret (abool true)
        else abind (aeval en b) (fun ob => abind (acond ob) (fun vb => aret (abool vb)))))
    | ECond a b d =>
        let r := abind (aeval en a) (fun oa =>
                 abind (acond oa) (fun va => if va then aeval en b else aeval en d)) in
        (compact ajoin (fst r), snd r)
    | ECast t a =>
        abind (aeval en a) (fun o =>
        abind (ascalar o) (fun p =>
        abind (aconvert (fst p) t (snd p)) (fun i => aret (av t i))))
    | EMin t a b =>
        abind (aeval en a) (fun oa =>
        abind (ascalar oa) (fun pa =>
        abind (aeval en b) (fun ob =>
        abind (ascalar ob) (fun pb =>
        aminmax false t (fst pa) (snd pa) (fst pb) (snd pb)))))
    | EMax t a b =>
        abind (aeval en a) (fun oa =>
        abind (ascalar oa) (fun pa =>
        abind (aeval en b) (fun ob =>
        abind (ascalar ob) (fun pb =>
        aminmax true t (fst pa) (snd pa) (fst pb) (snd pb)))))
    | ECall f a => abind (aeval en a) (fun o => acall f o)
    end.

  Fixpoint aeval_path (en : aenv) (p : list expr) : ar (list itv) :=
    match p with
    | [] => aret []
    | e :: p' =>
        abind (aeval en e) (fun o =>
        abind (aint o) (fun k =>
        abind (aeval_path en p') (fun ks => aret (k :: ks))))
    end.
End AExpr.

(** ** Assignment *)

Fixpoint aput (o : aobj) (path : list itv) (t : sty) (i : itv) : ar aobj :=
  match path with
  | [] => match o with
          | AScal t' _ _ _ => abind (aconvert t t' i) (fun j => aret (av t' j))
          | _ => afail EStuck
          end
  | k :: path' =>
      match o with
      | AArr l =>
          let r := abind (aget l k) (fun p =>
                   abind (aput (snd p) path' t i) (fun x' => aret (AArr (set_nth (fst p) x' l)))) in
          (compact ajoin (fst r), snd r)
      | _ => afail EStuck
      end
  end.

Fixpoint aupdate (x : string) (o : aobj) (en : aenv) : aenv :=
  match en with
  | [] => []
  | (y, o') :: en' => if String.eqb x y then (y, o) :: en' else (y, o') :: aupdate x o en'
  end.

(** The new environment and whether memory may have been written. *)
Definition aassign (en : aenv) (x : string) (path : list itv) (v : aobj) : ar (aenv * bool) :=
  abind (ascalar v) (fun p =>
  match alookup x en with
  | None => afail EStuck
  | Some (APtr t k rd) =>
      match path with
      | [i] => abind (aconvert (fst p) t (snd p)) (fun z =>
               ([(en, true)],
                (if within t z then [] else [EStuck]) ++
                (if (0 <=? fst i) && (snd i <? k) then [] else [EUB OutOfBounds]) ++
                (if k <? 0 then [EStuck] else [])))
      | _ => afail EStuck
      end
  | Some o => abind (aput o path (fst p) (snd p)) (fun o' => aret (aupdate x o' en, false))
  end).

(** ** memcpy *)

Fixpoint asize (o : aobj) : nat :=
  match o with
  | AScal t _ _ _ => nbytes t
  | AArr l => (fix go l := match l with [] => O | x :: l' => (asize x + go l')%nat end) l
  | APtr _ _ _ => O
  end.
Fixpoint all_init (o : aobj) : bool :=
  match o with
  | AScal _ i _ _ => i
  | AArr l => forallb all_init l
  | APtr _ _ _ => true
  end.
(** Every scalar of [o] may be anything of its type; [i]: it is initialised. *)
Fixpoint refill (i : bool) (o : aobj) : aobj :=
  match o with
  | AScal t _ _ _ => AScal t i (lo t) (hi t)
  | AArr l => AArr (map (refill i) l)
  | APtr t k rd => APtr t k rd
  end.

Definition amemcpy (dst src : aobj) (n : itv) : ar aobj :=
  let whole := (fst n =? snd n) && (fst n =? Z.of_nat (asize dst))
               && (fst n <=? Z.of_nat (asize src)) && all_init src in
  if whole then aret (refill true dst) else ([refill false dst], [EUB OutOfBounds]).

(** ** Statements *)

(** The environments in which the statement may end, the values it may return, the
    errors, and whether memory may have been written. *)
Record aout := mkout { nrm : list aenv; rets : list aobj; errs : list err; wr : bool }.

Definition ojoin (a b : aout) : aout :=
  mkout (compact ejoin (nrm a ++ nrm b)) (compact ajoin (rets a ++ rets b))
        (adde (errs a) (errs b)) (wr a || wr b).
Definition oerr (es : list err) : aout := mkout [] [] es false.
Definition onrm (en : aenv) : aout := mkout [en] [] [] false.

(** All alternatives of [r], then [f]. *)
Fixpoint oall {A} (l : list A) (f : A -> aout) : aout :=
  match l with
  | [] => oerr []
  | a :: l' => match l' with [] => f a | _ => ojoin (f a) (oall l' f) end
  end.
Definition obind {A} (r : ar A) (f : A -> aout) : aout :=
  let o := oall (fst r) f in mkout (nrm o) (rets o) (adde (snd r) (errs o)) (wr o).
Definition oseq (a : aout) (f : aenv -> aout) : aout :=
  let o := oall (nrm a) f in
  mkout (nrm o) (match rets a with [] => rets o | _ => compact ajoin (rets a ++ rets o) end)
        (adde (errs a) (errs o)) (wr a || wr o).

Definition apop (n : nat) (en : aenv) : aenv := skipn (List.length en - n) en.
Definition opop (n : nat) (o : aout) : aout := mkout (map (apop n) (nrm o)) (rets o) (errs o) (wr o).

Fixpoint aloop (fuel : nat) (cond : aenv -> ar bool) (step : aenv -> aout) (en : aenv) : aout :=
  match fuel with
  | O => oerr [ETimeout]
  | S k => obind (cond en) (fun b => if b then oseq (step en) (aloop k cond step) else onrm en)
  end.

Fixpoint afresh (t : ty) : aobj :=
  match t with
  | TVoid => AArr []
  | TScal s => AScal s false (lo s) (hi s)
  | TArr n t' => AArr (repeat (afresh t') n)
  | TStruct l => AArr (map afresh l)
  | TPtr s => APtr s (-1) false
  end.

Section AStmt.
  Variable wv : bool.
  Variable acall : string -> aobj -> ar aobj.
  Variable fuel : nat.
  Let ev := aeval wv acall.

  Definition ainit (t : ty) (o : aobj) : ar aobj :=
    match t with
    | TScal s => abind (ascalar o) (fun p => abind (aconvert (fst p) s (snd p)) (fun i => aret (av s i)))
    | _ => aret o
    end.

  Fixpoint aexec (s : stmt) (en : aenv) : aout :=
    match s with
    | SSkip => onrm en
    | SSeq s1 s2 => oseq (aexec s1 en) (aexec s2)
    | SDecl t x None => onrm ((x, afresh t) :: en)
    | SDecl t x (Some e) =>
        obind (abind (ev en e) (ainit t)) (fun o => onrm ((x, o) :: en))
    | SAssign x path e =>
        obind (aeval_path wv acall en path) (fun ks =>
        obind (ev en e) (fun v =>
        obind (aassign en x ks v) (fun r => mkout [fst r] [] [] (snd r))))
    | SIf e s1 s2 =>
        opop (List.length en)
          (obind (abind (ev en e) acond) (fun b => if b then aexec s1 en else aexec s2 en))
    | SFor t i init cond next body =>
        obind (abind (ev en init) (ainit (TScal t))) (fun o =>
        opop (List.length en)
          (aloop fuel
            (fun en => abind (ev en cond) acond)
            (fun en =>
               oseq (opop (List.length en) (aexec body en)) (fun en' =>
               obind (ev en' next) (fun v =>
               obind (aassign en' i [] v) (fun r => mkout [fst r] [] [] (snd r)))))
            ((i, o) :: en)))
    | SMemcpy dst src n =>
        obind (abind (ev en n) aint) (fun k =>
        match alookup dst en, alookup src en with
        | Some od, Some os => obind (amemcpy od os k) (fun od' => onrm (aupdate dst od' en))
        | _, _ => oerr [EStuck]
        end)
    | SAbort => oerr [EAbort]
    | SReturn e => obind (ev en e) (fun o => mkout [] [o] [] false)
    end.

  Fixpoint abind_params (ps : list (string * ty)) (args : list aobj) : ar aenv :=
    match ps, args with
    | [], [] => aret []
    | (x, t) :: ps', a :: args' =>
        abind (ainit t a) (fun o =>
        abind (abind_params ps' args') (fun en => aret ((x, o) :: en)))
    | _, _ => afail EStuck
    end.

  (** The values a call may return ([None]: void), the errors, and whether memory may
      be written. *)
  Definition arun_body (f : func) (args : list aobj) : list (option aobj) * list err * bool :=
    let o := obind (abind_params (f_params f) args) (aexec (f_body f)) in
    match f_ret f with
    | TVoid => (match nrm o with [] => [] | _ => [None] end,
                adde (match rets o with [] => [] | _ => [EStuck] end) (errs o), wr o)
    | t => let r := abinds (rets o) (ainit t) in
           (map Some (fst r),
            adde (match nrm o with [] => [] | _ => [EUB MissingReturn] end) (adde (snd r) (errs o)), wr o)
    end.
End AStmt.

(** Forget what is known about pointers (the helpers run in an empty memory). *)
Fixpoint forget (o : aobj) : aobj :=
  match o with
  | AScal t i l h => AScal t i l h
  | AArr l => AArr (map forget l)
  | APtr t _ _ => APtr t (-1) false
  end.

Fixpoint acall_helper (wv : bool) (prog : list func) (fuel : nat) (depth : nat)
  (name : string) (a : aobj) : ar aobj :=
  match depth with
  | O => afail EStuck
  | S d =>
      match find (fun f => String.eqb (f_name f) name) prog with
      | None => afail EStuck
      | Some f =>
          let '(vs, es, _) := arun_body wv (acall_helper wv prog fuel d) fuel f [forget a] in
          abind (vs, es) (fun v => match v with Some o => aret (forget o) | None => afail EStuck end)
      end
  end.

Definition arun (wv : bool) (f : func) (args : list aobj) : list (option aobj) * list err * bool :=
  arun_body wv (acall_helper wv helpers loop_fuel call_depth) loop_fuel f args.
