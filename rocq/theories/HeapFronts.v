(** The routines of src/lgar.cxx on wetting fronts as the source has them: nodes in a heap, pointers, and assignments to single members
    of a node, in the order of the source.  Fronts.v, Infil.v and Move.v state the same routines on Coq lists and positions; Prop_Refine.v proves that
    the two agree.

    A pointer that was read is read again after every write to a node.  Arithmetic on the values is the one of the list model. *)

From Coq Require Import Reals ZArith List Bool.
From Verif Require Import Outcome Dbl Types ListOps HeapList Soil Fronts Infil Move.
Import ListNotations.
Open Scope dbl_scope.

(** Step budget of the loops that walk along [next]: a walk with more steps than cells were ever handed out meets a node twice and
    never ends. *)
Definition room (h : heap) : nat := S (h_top h).

(** [p->member = x]; [g] changes the member. *)
Definition h_upd (g : front -> front) (h : heap) (p : ptr) : outcome heap :=
  n <- h_load h p ;; h_store h p (mkN (g (n_val n)) (n_next n)).

(** [p->next] *)
Definition h_next (h : heap) (p : ptr) : outcome ptr := n <- h_load h p ;; Ok (n_next n).
(** The data members of [*p]. *)
Definition h_get (h : heap) (p : ptr) : outcome front := n <- h_load h p ;; Ok (n_val n).

Definition is_null (p : ptr) : bool := match p with None => true | Some _ => false end.

Definition h_length (h : heap) (head : ptr) : outcome Z := h_listLength (room h) h head 0.
Definition h_findFront (key : Z) (h : heap) (head old : ptr) : outcome ptr := h_listFindFront (room h) key h head old.
Definition h_deleteFront (num : Z) (h : heap) (head : ptr) : outcome (heap * ptr * ptr) := h_listDeleteFront (room h) num h head.

Section HeapFronts.
Context {fp : Fp} {cfg : Cfg}.

(** lgar_calc_mass_bal, lgar.cxx:2235-2271 *)
Fixpoint h_mass_loop (k : nat) (cum : list dbl) (h : heap) (current : ptr) (sum : dbl) : outcome dbl :=
  match k with
  | O => Stop OutOfFuel
  | S k' =>
      c <- h_get h current ;;
      base <- aget cum (f_layer c - 1)%Z ;;
      nx <- h_next h current ;;
      sum <- (if negb (is_null nx) then
                n <- h_get h nx ;;
                Ok (sum + (if (f_layer n =? f_layer c)%Z
                           then (f_depth c - base) * (f_theta c - f_theta n)
                           else (f_depth c - base) * f_theta c))
              else Ok (sum + f_theta c * (f_depth c - base))) ;;
      if is_null nx then Ok sum else h_mass_loop k' cum h nx sum
  end.
Definition h_mass (cum : list dbl) (h : heap) (head : ptr) : outcome dbl :=
  if is_null head then Ok (Fin 0) else h_mass_loop (room h) cum h head (Fin 0).

(** wetting_front_free_drainage, lgar.cxx:922-949 *)
Fixpoint h_free_drainage_loop (k : nat) (h : heap) (current : ptr) (w : Z) : outcome Z :=
  match k with
  | O => Stop OutOfFuel
  | S k' =>
      if is_null current then Ok w
      else
        nx <- h_next h current ;;
        if negb (is_null nx) then
          c <- h_get h current ;;
          n <- h_get h nx ;;
          if (f_layer c =? f_layer n)%Z then Ok w else h_free_drainage_loop k' h nx (w + 1)%Z
        else h_free_drainage_loop k' h nx w
  end.
Definition h_free_drainage (h : heap) (head : ptr) : outcome Z :=
  n <- h_length h head ;;
  w <- h_free_drainage_loop (room h) h head 1%Z ;;
  Ok (if (w >? n)%Z then (w - 1)%Z else w).

(** Loop body of lgar_merge_wetting_fronts, lgar.cxx:1584-1622: heap, *head and [current] after it. *)
Definition h_merge_step (e : env) (h : heap) (head current : ptr) : outcome (heap * ptr * ptr) :=
  next <- h_next h current ;;
  next_to_next <- h_next h next ;;
  c <- h_get h current ;;
  n <- h_get h next ;;
  '(h, head) <-
    (if (f_depth c >? f_depth n) && (f_layer c =? f_layer n)%Z && negb (f_bottom n) then
       nn <- h_get h next_to_next ;;
       let mass := f_depth c * (f_theta c - f_theta n) + f_depth n * (f_theta n - f_theta nn) in
       h <- h_upd (fun f => set_depth f (mass / (f_theta c - f_theta nn))) h current ;;
       c <- h_get h current ;;
       _ <- cassert (f_depth c >? Fin 0) ;;
       s <- soil_of e (f_layer c) ;;
       let Se := Se_of_theta s (f_theta c) in
       ff <- aget (e_frozen e) (f_layer c) ;;
       let Ksat := s_Ksat s * ff in
       h <- h_upd (fun f => set_psi f (h_of_Se s Se)) h current ;;
       h <- h_upd (fun f => set_K f (K_of_Se s Se Ksat)) h current ;;
       n <- h_get h next ;;
       '(h, head, _) <- h_deleteFront (f_num n) h head ;;
       Ok (h, head)
     else Ok (h, head)) ;;
  current <- h_next h current ;;
  Ok (h, head, current).

(** lgar_merge_wetting_fronts, lgar.cxx:1553-1631.  [k] bounds the iterations as in the list model. *)
Fixpoint h_merge_loop (k : nat) (e : env) (wf : Z) (h : heap) (head current : ptr) : outcome (heap * ptr) :=
  match k with
  | O => Stop OutOfFuel
  | S k' =>
      len <- h_length h head ;;
      if (wf =? len)%Z then Ok (h, head)
      else
        '(h, head, current) <- h_merge_step e h head current ;;
        h_merge_loop k' e (wf + 1)%Z h head current
  end.
Definition h_merge (e : env) (h : heap) (head : ptr) : outcome (heap * ptr) := h_merge_loop (room h) e 1 h head head.

(** Loop body of lgar_wetting_fronts_cross_layer_boundary, lgar.cxx:1655-1727: heap and [current] after it.  As in the list model
    cum_layer_thickness_cm[layer+1] is read in any case. *)
Definition h_cross_step (e : env) (h : heap) (current : ptr) : outcome (heap * ptr) :=
  c <- h_get h current ;;
  let lay := f_layer c in
  s <- soil_of e lay ;;
  ff <- aget (e_frozen e) lay ;;
  let Ksat := s_Ksat s * ff in
  next <- h_next h current ;;
  next_to_next <- h_next h next ;;
  ck <- aget (e_cum e) lay ;;
  n <- h_get h next ;;
  h <-
    (if (f_depth c >? ck) && (f_depth n =? ck) && negb (lay =? e_nlayers e)%Z then
       let current_theta := dfmin (s_theta_e s) (f_theta c) in
       let overshot := f_depth c - f_depth n in
       s2 <- soil_of e (lay + 1)%Z ;;
       let Se := Se_of_theta s (f_theta c) in
       h <- h_upd (fun f => set_psi f (h_of_Se s Se)) h current ;;
       h <- h_upd (fun f => set_K f (K_of_Se s Se Ksat)) h current ;;
       c <- h_get h current ;;
       let theta_new := theta_of_h s2 (f_psi c) in
       n <- h_get h next ;;
       nn <- h_get h next_to_next ;;
       let corr := overshot * (current_theta - f_theta n) in
       let zcorr := corr / (theta_new - f_theta nn) in
       ck1 <- aget (e_cum e) (lay + 1)%Z ;;
       let zcorr := if disinf zcorr then ck1 / lit 1000 else zcorr in
       let depth_new := ck + zcorr in
       h <- h_upd (fun f => set_depth f ck) h current ;;
       h <- h_upd (fun f => set_theta f theta_new) h next ;;
       c <- h_get h current ;;
       h <- h_upd (fun f => set_psi f (f_psi c)) h next ;;
       h <- h_upd (fun f => set_depth f depth_new) h next ;;
       h <- h_upd (fun f => set_layer f (lay + 1)%Z) h next ;;
       c <- h_get h current ;;
       h <- h_upd (fun f => set_dzdt f (f_dzdt c)) h next ;;
       h <- h_upd (fun f => set_dzdt f (Fin 0)) h current ;;
       h <- h_upd (fun f => set_bottom f true) h current ;;
       h_upd (fun f => set_bottom f false) h next
     else Ok h) ;;
  current <- h_next h current ;;
  Ok (h, current).

(** lgar_wetting_fronts_cross_layer_boundary, lgar.cxx:1641-1729 *)
Fixpoint h_cross_loop (k : nat) (e : env) (wf : Z) (h : heap) (head current : ptr) : outcome heap :=
  match k with
  | O => Stop OutOfFuel
  | S k' =>
      len <- h_length h head ;;
      if (wf =? len)%Z then Ok h
      else
        '(h, current) <- h_cross_step e h current ;;
        h_cross_loop k' e (wf + 1)%Z h head current
  end.
Definition h_cross (e : env) (h : heap) (head : ptr) : outcome heap := h_cross_loop (room h) e 1 h head head.

(** lgar_wetting_front_cross_domain_boundary, lgar.cxx:1738-1813: flux, heap and *head.  [k] is length - wf, the loop runs while it is not 0. *)
Fixpoint h_domain_loop (k : nat) (e : env) (domain : dbl) (wf : Z) (h : heap) (head current : ptr) : outcome (dbl * heap * ptr) :=
  match k with
  | O => Ok (Fin 0, h, head)
  | S k' =>
      len <- h_length h head ;;
      if (wf >=? len)%Z then Ok (Fin 0, h, head)
      else
        c <- h_get h current ;;
        t <- uget (e_stype e) (f_layer c) ;;
        next <- h_next h current ;;
        next_to_next <- h_next h next ;;
        n <- h_get h next ;;
        if is_null next_to_next && (f_depth c >=? domain) then
          let flux := (f_theta c - f_theta n) * (f_depth c - f_depth n) in
          s <- uget (e_soils e) t ;;
          ff <- aget (e_frozen e) (f_layer c) ;;
          let Ksat := s_Ksat s * ff in
          h <- h_upd (fun f => set_theta f (f_theta c)) h next ;;
          c <- h_get h current ;;
          let Se := Se_of_theta s (f_theta c) in
          h <- h_upd (fun f => set_psi f (h_of_Se s Se)) h next ;;
          h <- h_upd (fun f => set_K f (K_of_Se s Se Ksat)) h next ;;
          c <- h_get h current ;;
          '(h, head, _) <- h_deleteFront (f_num c) h head ;;
          Ok (Fin 0 + flux, h, head)
        else
          current <- h_next h current ;;
          h_domain_loop k' e domain (wf + 1)%Z h head current
  end.
Definition h_domain (e : env) (domain : dbl) (h : heap) (head : ptr) : outcome (dbl * heap * ptr) :=
  len <- h_length h head ;;
  h_domain_loop (Z.to_nat (len - 1)) e domain 1 h head head.

(** The while loop lgar.cxx:1864-1876 *)
Fixpoint h_fix_above (n : nat) (e : env) (k : Z) (h : heap) (current current_local : ptr) : outcome heap :=
  match n with
  | O => Stop OutOfFuel
  | S n' =>
      cl <- h_get h current_local ;;
      if (f_layer cl <? k)%Z then
        s <- soil_of e (f_layer cl) ;;
        c <- h_get h current ;;
        h <- h_upd (fun f => set_psi f (f_psi c)) h current_local ;;
        c <- h_get h current ;;
        h <- h_upd (fun f => set_theta f (theta_of_h s (f_psi c))) h current_local ;;
        nx <- h_next h current_local ;;
        h_fix_above n' e k h current nx
      else Ok h
  end.

(** lgar.cxx:1840-1880, the body for an inverted pair: heap, *head, [current] and *mass_change. *)
Definition h_fix_pair (e : env) (h : heap) (head current : ptr) (mc : dbl) : outcome (heap * ptr * ptr * dbl) :=
  c <- h_get h current ;;
  let k := f_layer c in
  before <- h_mass (e_cum e) h head ;;
  '(h, head, current) <- h_deleteFront (f_num c) h head ;;
  h <-
    (if (k >? 1)%Z then
       cur <- h_get h current ;;
       s <- soil_of e (f_layer cur) ;;
       h <- h_upd (fun f => set_psi f (h_of_Se s (Se_of_theta s (f_theta cur)))) h current ;;
       h_fix_above (room h) e k h current head
     else Ok h) ;;
  after <- h_mass (e_cum e) h head ;;
  Ok (h, head, current, mc + dabs (after - before)).

(** lgar_fix_dry_over_wet_wetting_fronts, lgar.cxx:1821-1900: heap, *head and *mass_change.  [k] bounds the iterations as in the list
    model; once [next] is NULL the remaining iterations do nothing. *)
Fixpoint h_fix_loop (k : nat) (e : env) (l : Z) (h : heap) (head current next : ptr) (mc : dbl) : outcome (heap * ptr * dbl) :=
  match k with
  | O => Stop OutOfFuel
  | S k' =>
      len <- h_length h head ;;
      if (l <=? len)%Z then
        if is_null next then h_fix_loop k' e (l + 1)%Z h head current next mc
        else
          c <- h_get h current ;;
          n <- h_get h next ;;
          '(h, head, current, mc) <-
            (if (f_theta c <=? f_theta n) && (f_layer c =? f_layer n)%Z then h_fix_pair e h head current mc
             else Ok (h, head, current, mc)) ;;
          current <- h_next h current ;;
          next <- (if is_null current then Ok None else h_next h current) ;;
          h_fix_loop k' e (l + 1)%Z h head current next mc
      else Ok (h, head, mc)
  end.
Definition h_fix (e : env) (mc : dbl) (h : heap) (head : ptr) : outcome (heap * ptr * dbl) :=
  next <- h_next h head ;;
  h_fix_loop (S (room h)) e 1 h head head next mc.

(** lgar_check_dry_over_wet_wetting_fronts, lgar.cxx:1907-1931; [k] is the number of iterations left. *)
Fixpoint h_check_loop (k : nat) (h : heap) (current next : ptr) : outcome bool :=
  match k with
  | O => Ok false
  | S k' =>
      if is_null next then h_check_loop k' h current next
      else
        c <- h_get h current ;;
        n <- h_get h next ;;
        if (f_theta c <=? f_theta n) && (f_layer c =? f_layer n)%Z then Ok true
        else
          current <- h_next h current ;;
          next <- (if is_null current then Ok None else h_next h current) ;;
          h_check_loop k' h current next
  end.
Definition h_check (h : heap) (head : ptr) : outcome bool :=
  next <- h_next h head ;;
  len <- h_length h head ;;
  h_check_loop (Z.to_nat len) h head next.

(** The infiltration capacity of lgar_insert_water, lgar.cxx:1962-2039. *)
Definition h_infiltration_capacity (e : env) (closed : bool) (nint : Z) (dt aet ponded precip : dbl) (wfd : Z)
    (h : heap) (head : ptr) : outcome dbl :=
  let h_p := dfmax (ponded - precip * dt) (Fin 0) in
  free <- h_findFront wfd h head None ;;
  free_next <- h_findFront (wfd + 1)%Z h head None ;;
  n <- h_length h head ;;
  fd <- h_get h free ;;
  let lay := f_layer fd in
  s <- soil_of e lay ;;
  cur <- h_get h head ;;
  ff <- aget (e_frozen e) (f_layer cur) ;;
  let Ksat := s_Ksat s * ff in
  Geff <- (if (n =? e_nlayers e)%Z then Ok (Fin 0)
           else
             nx <- h_get h free_next ;;
             calc_Geff closed (f_theta nx) (s_theta_e s) s Ksat nint) ;;
  f_p <- (if (lay =? 1)%Z then Ok (Ksat * (lit 1 + (Geff + h_p) / f_depth fd))
          else
            c0 <- aget (e_cum e) (lay - 1)%Z ;;
            bs <- layers_above_sum e lay ((f_depth fd - c0) / Ksat) ;;
            Ok (f_depth fd / bs + (Geff + h_p) * Ksat / f_depth fd)) ;;
  s1 <- soil_of e (f_layer cur) ;;
  let f_p := if (lay =? e_nlayers e)%Z && (f_theta fd =? s_theta_e s1) && (e_nlayers e =? n)%Z
             then dfmin f_p (aet / dt) else f_p in
  cm <- h_mass (e_cum e) h head ;;
  ms <- max_storage e ;;
  Ok (if f_p >? (ms - cm) / dt then (ms - cm) / dt else f_p).

(** lgar_insert_water, lgar.cxx:1941-2092 *)
Definition h_insert_water (e : env) (closed : bool) (nint : Z) (dt aet ponded volin precip : dbl) (wfd : Z)
    (ponded_max : dbl) (h : heap) (head : ptr) : outcome (dbl * dbl * dbl) :=
  f_p <- h_infiltration_capacity e closed nint dt aet ponded precip wfd h head ;;
  Ok (surface_partition dt ponded volin ponded_max f_p).

(** lgar_create_surficial_front, lgar.cxx:2098-2171: heap, *head, ponded depth, infiltrated volume. *)
Definition h_create (e : env) (ponded dry_depth theta1 : dbl) (h : heap) (head : ptr) : outcome (heap * ptr * dbl * dbl) :=
  s <- soil_of e 1 ;;
  let theta_e := s_theta_e s in
  let delta := theta_e - theta1 in
  let fits := dry_depth * delta >? ponded in
  let volin := if fits then ponded else dry_depth * delta in
  let ponded' := if fits then Fin 0 else ponded - dry_depth * delta in
  let theta_new := if fits then dfmin (theta1 + ponded / dry_depth) theta_e else theta_e in
  _ <- (if fits then Ok (Fin 0) else aget (e_cum e) 1) ;;
  '(h, head) <- h_listInsertFirst (room h) NaN NaN dry_depth theta_new 1 1 false h head ;;
  ff <- aget (e_frozen e) 1 ;;
  let Ksat := s_Ksat s * ff in
  let Se := Se_of_theta s theta_new in
  h <- h_upd (fun f => set_psi f (h_of_Se s Se)) h head ;;
  h <- h_upd (fun f => set_K f (K_of_Se s Se Ksat * ff)) h head ;;
  h <- h_upd (fun f => set_dzdt f (Fin 0)) h head ;;
  next <- h_next h head ;;
  '(h, head) <-
    (if negb (is_null next) then
       c <- h_get h head ;;
       n <- h_get h next ;;
       if f_depth c >? f_depth n then
         '(h, head) <- h_merge e h head ;;
         h <- h_cross e h head ;;
         Ok (h, head)
       else Ok (h, head)
     else Ok (h, head)) ;;
  Ok (h, head, ponded', volin).

(** lgar_calc_dry_depth, lgar.cxx:2180-2229: (dry depth, delta theta). *)
Definition h_dry_depth (e : env) (closed : bool) (nint : Z) (dt : dbl) (h : heap) (head : ptr) : outcome (dbl * dbl) :=
  c <- h_get h head ;;
  s <- soil_of e (f_layer c) ;;
  ff <- aget (e_frozen e) (f_layer c) ;;
  let Ksat := s_Ksat s * ff in
  let theta1 := f_theta c in
  let theta_e := s_theta_e s in
  let tau := dt * Ksat / (theta_e - theta1) in
  Geff <- calc_Geff closed theta1 theta_e s Ksat nint ;;
  let dry := lit (1 / 2) * (tau + dsqrt (tau * tau + lit 4 * tau * Geff)) in
  ck <- aget (e_cum e) (f_layer c) ;;
  Ok (dfmin ck dry, theta_e - theta1).

(** calc_aet, aet.cxx:17-74 *)
Definition h_aet (e : env) (pet dt wilting_psi fc_psi : dbl) (h : heap) (head : ptr) : outcome dbl :=
  c <- h_get h head ;;
  s <- soil_of e (f_layer c) ;;
  let theta_fc := theta_of_h s fc_psi in
  let wp_head_theta := theta_of_h s wilting_psi in
  let theta_wp := (theta_fc - wp_head_theta) * lit 1 / lit 2 + wp_head_theta in
  let psi_wp := h_of_Se s (Se_of_theta s theta_wp) in
  let h_ratio := lit 1 + dpow (f_psi c / psi_wp) (lit 3) in
  let aet := pet * (lit 1 / h_ratio) * dt in
  Ok (if aet <? Fin 0 then Fin 0
      else if aet >? pet * dt then pet * dt
      else aet).

(** lgar_dzdt_calc, lgar.cxx:2362-2506 *)
Fixpoint h_dzdt_loop (k : nat) (e : env) (closed : bool) (nint : Z) (h_p : dbl) (h : heap) (current : ptr) : outcome heap :=
  match k with
  | O => Stop OutOfFuel
  | S k' =>
      c <- h_get h current ;;
      if f_K c <? Fin 0 then Stop Abort
      else
        _ <- soil_of e (f_layer c) ;;
        _ <- aget (e_frozen e) (f_layer c) ;;
        next <- h_next h current ;;
        if is_null next then Ok h
        else
          n <- h_get h next ;;
          v <- (if f_bottom c then Ok (Fin 0) else dzdt_front e closed nint h_p c n) ;;
          h <- h_upd (fun f => set_dzdt f v) h current ;;
          current <- h_next h current ;;
          if is_null current then Ok h else h_dzdt_loop k' e closed nint h_p h current
  end.
Definition h_dzdt (e : env) (closed : bool) (nint : Z) (h_p : dbl) (h : heap) (head : ptr) : outcome heap :=
  if is_null head then Stop Throw else h_dzdt_loop (room h) e closed nint h_p h head.

(** Body of the main loop of lgar_move_wetting_fronts for the front with number [wf], lgar.cxx:1007-1316, without the part for wf = 1: heap, *head
    and *AET_demand_cm. *)
Definition h_move_one (e : env) (dt precip : dbl) (wfd : Z) (prev : ptr) (nf wf : Z) (h : heap) (head : ptr) (aet : dbl)
  : outcome (heap * ptr * dbl) :=
  current <- h_findFront wf h head None ;;
  next <- (if (wf =? 1)%Z || (wf <? nf)%Z then h_findFront (wf + 1)%Z h head None else Ok None) ;;
  previous <- (if (wf =? 1)%Z then Ok None else h_findFront (wf - 1)%Z h head None) ;;
  current_old <- h_findFront wf h head prev ;;
  next_old <- (if (wf =? 1)%Z || (wf <? nf)%Z then h_findFront (wf + 1)%Z h head prev else Ok None) ;;
  c <- h_get h current ;;
  let lay := f_layer c in
  s <- soil_of e lay ;;
  above <- (if (wf =? 1)%Z then Ok lay else p <- h_get h previous ;; Ok (f_layer p)) ;;
  below <- (if (wf =? nf)%Z then Ok (lay + 1)%Z else n <- h_get h next ;; Ok (f_layer n)) ;;
  if (wf <? nf)%Z && negb (below =? lay)%Z then
    (* :1074-1082 *)
    n <- h_get h next ;;
    h <- h_upd (fun f => set_theta f (theta_of_h s (f_psi n))) h current ;;
    n <- h_get h next ;;
    h <- h_upd (fun f => set_psi f (f_psi n)) h current ;;
    Ok (h, head, aet)
  else if (wf =? nf)%Z && negb (below =? lay)%Z && (nf =? e_nlayers e)%Z then
    (* :1098-1175 *)
    h <- h_upd (fun f => set_depth f (f_depth f + f_dzdt f * dt)) h current ;;
    o <- h_get h current_old ;;
    c <- h_get h current ;;
    base <- aget (e_cum e) (lay - 1)%Z ;;
    let prior := (f_depth o - base) * (f_theta o - Fin 0) in
    let newm := (f_depth c - base) * (f_theta c - Fin 0) in
    '(th, aet) <- balance_theta e lay s (f_psi o) (f_psi c) None prior newm (Fin 0) (f_depth c - base)
                    (water_added wfd wf precip aet) aet ;;
    h <- h_upd (fun f => set_theta f th) h current ;;
    c <- h_get h current ;;
    h <- h_upd (fun f => set_psi f (h_of_Se s (Se_of_theta s (f_theta c)))) h current ;;
    Ok (h, head, aet)
  else if (wf <? nf)%Z && (below =? lay)%Z then
    '(h, head, aet) <-
      (if (lay =? 1)%Z then
         (* :1192-1226 *)
         o <- h_get h current_old ;;
         no <- h_get h next_old ;;
         let prior := f_depth o * (f_theta o - f_theta no) + water_added wfd wf precip aet in
         h <- h_upd (fun f => set_depth f (f_depth f + f_dzdt f * dt)) h current ;;
         column <- aget (e_cum e) (e_nlayers e) ;;
         h <- h_upd (fun f => set_depth f (dfmin (f_depth f) column)) h current ;;
         c <- h_get h current ;;
         if (f_dzdt c =? Fin 0) && negb (f_bottom c) then Ok (h, head, aet)
         else
           n <- h_get h next ;;
           let th := prior / f_depth c + f_theta n in
           if th <? s_theta_r s then
             before <- h_mass (e_cum e) h head ;;
             '(h, head, _) <- h_deleteFront (f_num c) h head ;;
             after <- h_mass (e_cum e) h head ;;
             Ok (h, head, aet - dabs ((before - f_depth c * (f_theta c - th)) - after))
           else
             h <- h_upd (fun f => set_theta f (dfmax (s_theta_r s) (dfmin (s_theta_e s) th))) h current ;;
             Ok (h, head, aet)
       else
         (* :1228-1311 *)
         h <- h_upd (fun f => set_depth f (f_depth f + f_dzdt f * dt)) h current ;;
         o <- h_get h current_old ;;
         on <- h_next h current_old ;;
         no' <- h_get h on ;;
         c <- h_get h current ;;
         n <- h_get h next ;;
         no <- h_get h next_old ;;
         base <- aget (e_cum e) (lay - 1)%Z ;;
         let prior := (f_depth o - base) * (f_theta o - f_theta no) in
         let newm := (f_depth c - base) * (f_theta c - f_theta n) in
         '(th, aet) <- balance_theta e lay s (f_psi o) (f_psi c) (Some (f_psi no', f_psi n)) prior newm
                         (f_theta n) (f_depth c - base) (water_added wfd wf precip aet) aet ;;
         h <- h_upd (fun f => set_theta f th) h current ;;
         Ok (h, head, aet)) ;;
    (* :1313-1314, also after the node was released at :1216 *)
    c <- h_get h current ;;
    h <- h_upd (fun f => set_psi f (h_of_Se s (Se_of_theta s (f_theta c)))) h current ;;
    Ok (h, head, aet)
  else Ok (h, head, aet).

(** The main loop, fronts [k], [k]-1, ..., 1. *)
Fixpoint h_move_loop (k : nat) (e : env) (dt precip : dbl) (wfd : Z) (prev : ptr) (nf : Z) (h : heap) (head : ptr) (aet : dbl)
  : outcome (heap * ptr * dbl) :=
  match k with
  | O => Ok (h, head, aet)
  | S k' =>
      '(h, head, aet) <- h_move_one e dt precip wfd prev nf (Z.of_nat k) h head aet ;;
      h_move_loop k' e dt precip wfd prev nf h head aet
  end.

(** The loop lgar.cxx:1366-1402 *)
Fixpoint h_closure_loop (k : nat) (e : env) (free : ptr) (target : dbl) (h : heap) (head : ptr) (mass err factor depth_new : dbl)
    (switched aug : bool) (iter : Z) : outcome (heap * dbl * bool) :=
  if dabs (err - closure_tol) >? lit (1 / 10000000000) then
    match k with
    | O => Ok (h, err, true)
    | S k' =>
        let iter := (iter + 1)%Z in
        let aug' := (iter >? 1000)%Z && negb aug in
        let factor := if aug' then factor * lit 100 else factor in
        let '(depth_new, switched, factor) :=
          if mass <? target then (depth_new + lit (1 / 100) * factor, false, factor)
          else
            let factor := if switched then factor else factor * lit (1 / 1000) in
            (depth_new - lit (1 / 100) * factor, true, factor) in
        f <- h_get h free ;;
        depth_new <- (if f_bottom f && (f_layer f =? e_nlayers e)%Z then aget (e_cum e) (e_nlayers e) else Ok depth_new) ;;
        h <- h_upd (fun f => set_depth f depth_new) h free ;;
        mass <- h_mass (e_cum e) h head ;;
        h_closure_loop k' e free target h head mass (dabs (mass - target)) factor depth_new switched (aug' || aug) iter
    end
  else Ok (h, err, false).

(** lgar.cxx:1323-1415, executed for wf = 1: heap, *AET_demand_cm and the bottom flux. *)
Definition h_closure (e : env) (old_mass precip : dbl) (h : heap) (head : ptr) (aet : dbl) : outcome (heap * dbl * dbl) :=
  h <- h_cross e h head ;;
  wfd <- h_free_drainage h head ;;
  s <- soil_of e wfd ;;
  free <- h_findFront wfd h head None ;;
  let target := (old_mass + precip) - (aet + Fin 0) in
  _ <- cassert (old_mass >? Fin 0) ;;
  f <- h_get h free ;;
  if dabs (f_theta f - s_theta_e s) <? lit (1 / 1000000000000000) then
    mass <- h_mass (e_cum e) h head ;;
    let err := dabs (mass - target) in
    next <- h_next h free ;;
    factor <- (if negb (is_null next) then
                 n <- h_get h next ;;
                 let d := dabs (f_theta f - f_theta n) in
                 Ok (if d <? lit (1 / 100) then lit 1 / d else lit 1)
               else Ok (lit 1)) ;;
    '(h, err, gave_up) <- h_closure_loop (Z.to_nat 10000) e free target h head mass err factor (f_depth f) false false 0 ;;
    if gave_up : bool then
      let aet := aet + err in
      mass <- h_mass (e_cum e) h head ;;
      let target := (old_mass + precip) - (aet + Fin 0) in
      Ok (h, aet, Fin 0 + (target - mass))
    else Ok (h, aet, Fin 0)
  else Ok (h, aet, Fin 0).

(** lgar.cxx:1446-1449, :1464-1467, :1482-1485 *)
Definition h_check_and_fix (e : env) (h : heap) (head : ptr) (mc : dbl) : outcome (heap * ptr * dbl) :=
  b <- h_check h head ;;
  if b : bool then h_fix e mc h head else Ok (h, head, mc).

(** lgar.cxx:1441-1485: heap, *head, flux through the bottom, mass change. *)
Definition h_merge_phases (e : env) (h : heap) (head : ptr) : outcome (heap * ptr * dbl * dbl) :=
  '(h, head, mc) <- h_check_and_fix e h head (Fin 0) ;;
  '(h, head) <- h_merge e h head ;;
  h <- h_cross e h head ;;
  '(h, head, mc) <- h_check_and_fix e h head mc ;;
  '(h, head) <- h_merge e h head ;;
  column <- aget (e_cum e) (e_nlayers e) ;;
  '(flux, h, head) <- h_domain e column h head ;;
  '(h, head, mc) <- h_check_and_fix e h head mc ;;
  Ok (h, head, flux, mc).

(** lgar.cxx:1507-1528: heap and the last value of [current]. *)
Fixpoint h_refresh (k : nat) (e : env) (wf : Z) (h : heap) (head current : ptr) : outcome (heap * ptr) :=
  match k with
  | O => Stop OutOfFuel
  | S k' =>
      len <- h_length h head ;;
      if (wf =? len)%Z then Ok (h, current)
      else
        c <- h_get h current ;;
        h <- (if f_psi c >? lit 1 then
                s <- soil_of e (f_layer c) ;;
                ff <- aget (e_frozen e) (f_layer c) ;;
                let Se := Se_of_theta s (f_theta c) in
                h <- h_upd (fun f => set_psi f (h_of_Se s Se)) h current ;;
                h_upd (fun f => set_K f (K_of_Se s Se (ff * s_Ksat s))) h current
              else Ok h) ;;
        current <- h_next h current ;;
        h_refresh k' e (wf + 1)%Z h head current
  end.

(** lgar.cxx:1537-1541 *)
Definition h_fix_single (e : env) (h : heap) (head current : ptr) : outcome heap :=
  len <- h_length h head ;;
  if (len =? 1)%Z then
    c <- h_get h current ;;
    d <- aget (e_cum e) 1 ;;
    if f_depth c <>? d then h_upd (fun f => set_depth f d) h current else Ok h
  else Ok h.

(** lgar_move_wetting_fronts, lgar.cxx:964-1544: heap, *head, *AET_demand_cm, *volin_cm. *)
Definition h_move (e : env) (dt volin : dbl) (wfd : Z) (old_mass aet : dbl) (h : heap) (head prev : ptr)
  : outcome (heap * ptr * dbl * dbl) :=
  _ <- aget (e_cum e) (e_nlayers e) ;;
  nf <- h_length h head ;;
  '(h, head, aet) <- h_move_loop (Z.to_nat nf) e dt volin wfd prev nf h head aet ;;
  '(h, aet, bflux) <- (if (nf =? 0)%Z then Ok (h, aet, Fin 0) else h_closure e old_mass volin h head aet) ;;
  '(h, head, flux, mc) <- h_merge_phases e h head ;;
  let bflux := bflux + flux in
  let aet := if dabs mc >? lit (1 / 10000000) then aet - mc else aet in
  '(h, current) <- h_refresh (room h) e 1 h head head ;;
  h <- h_fix_single e h head current ;;
  Ok (h, head, aet, bflux).

End HeapFronts.
