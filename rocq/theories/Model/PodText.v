(** The text of the .atm and .pod files: obj2podatm of ico2/occupation_domain.py:1206-1250
    and dode2/occupation_domain.py:1186-1230, and write_podatm of
    ico2/occupation_domain.py:1558-1638.

    Model/Pod.v computes the data; here they are printed.  Simplifications: as there, except
    that nothing of the text is left out; serial_number is an int. *)
From Coq Require Import Ascii String List ZArith Bool.
From Flocq Require Import IEEE754.BinarySingleNaN IEEE754.Binary IEEE754.Bits.
From Verif Require Import Base.Res Model.Tau Model.Arr Model.Num Model.Text Model.IcoMath1 Model.IcoNumeric Model.IcoDedup
  Model.DodeMath1 Model.DodeNumeric Model.DodeDedup Model.Pod.
Import ListNotations.
Local Open Scope res_scope.

(** '%.3f' of a double, as '%.6f' in Model/Text.v *)
Definition milli (m : positive) (e : Z) : Z :=   (* m * 2^e * 10^3, rounded *)
  if (0 <=? e)%Z then (Zpos m * 2 ^ e * 1000)%Z else half_even (Zpos m * 1000) (2 ^ (- e)).
Definition fixed3 (n : Z) : str :=
  show_Z (n / 1000) ++ "."%char :: pad "0"%char 3 (show_Z (n mod 1000)).
Definition show_f3 (x : binary64) : str :=
  match x with
  | B754_zero _ _ s => sign_str s ++ fixed3 0
  | B754_infinity _ _ s => sign_str s ++ lit "inf"
  | B754_nan _ _ _ _ _ => lit "nan"
  | B754_finite _ _ s m e _ => sign_str s ++ fixed3 (milli m e)
  end.
(** '%4.3f' *)
Definition show_f4_3 (x : binary64) : str := pad sp 4 (show_f3 x).

Section PodText.
Variable N : num.
Variables f3 f6 : F N -> str.   (* '%4.3f' and '%8.6f' *)

Fixpoint join (sep : str) (l : list str) : str :=
  match l with
  | [] => []
  | [x] => x
  | x :: l => x ++ sep ++ join sep l
  end.
(** '%f ... %f'%(vn[0], ..., vn[5]) *)
Definition six_fields (f : F N -> str) (sep : str) (vn : list (F N)) : res str :=
  xs <- six (get vn) ;; Ok (join sep (map f xs)).

(** ico2/occupation_domain.py:1219 and 1568 *)
Definition atm_head (i : Z) : str := show_Z i ++ lit " 'Em' 1 " ++ show_Z i ++ lit " 1 2.0 0. 0. 1.0 0. 0. 0." ++ [nl].
(** lines 1222-1223 and 1569-1575 *)
Definition atm_x (x : list (F N)) : res str := s <- six_fields f3 (lit "  ") x ;; Ok (lit "x=  " ++ s ++ [nl]).
(** lines 1232 and 1615 *)
Definition pod_head (i : Z) (n : nat) : str := show_Z i ++ sp :: show_nat n ++ sp :: show_Z 2 ++ lit " 'comment'" ++ [nl].
(** lines 1233-1236 and 1616-1624 *)
Definition pod_ej_line (e : list (F N)) : res str := s <- six_fields f6 (lit " ") e ;; Ok (lit "ej=  " ++ s ++ [nl]).
(** lines 1247-1250 and 1625-1627, without the newline *)
Definition pod_nth_line (m : Z) (idx : list nat) : str := lit "nth= " ++ show_Z m ++ concat (map (fun i => sp :: show_nat i) idx).
(** lines 1232-1250 and 1615-1627 *)
Definition pod_text (i : Z) (p : pod N) : res str :=
  ejs <- mapM pod_ej_line (pod_ej N p) ;;
  Ok (pod_head i (pod_num N p) ++ concat ejs ++ pod_nth_line (pod_nth N p) (pod_idx N p)).

(** The return value, and the contents of the .atm and the .pod file. *)
Definition obj2podatm_text_ (k : nat) (proj : vec -> res vec) (dedup : arr -> res vecs) (value : vec -> list (F N))
    (o : obj4) (serial_number : Z) : res (Z * option (str * str)) :=
  '(r, d) <- obj2podatm_ N k proj dedup value o ;;
  match d with
  | Some (vn, p) => x <- atm_x vn ;; t <- pod_text serial_number p ;; Ok (r, Some (atm_head serial_number ++ x, t ++ [nl]))
  | None => Ok (r, None)
  end.
Definition obj2podatm_text := obj2podatm_text_ 4 projection3 remove_doubling_in_perp_space (numerical_vector N).
Definition dobj2podatm_text := obj2podatm_text_ 3 dprojection3 dremove_doubling_in_perp_space (dnumerical_vector N).

(** lines 1576-1586 *)
Definition atm_text (i : Z) (d : list (F N) * list (F N)) : res str :=
  x <- atm_x (fst d) ;; xi <- six_fields f6 (lit "  ") (snd d) ;;
  Ok (atm_head i ++ x ++
      lit "xe1= 1. 0.  0. 0.  0. 0. u1=0.0            5f" ++ [nl] ++
      lit "xe2= 1. 0. -1. 0. -1. 0. u2=0.0            3f" ++ [nl] ++
      lit "xe3= 1. 0.  0. 0. -1. 0. u3=0.0            2f" ++ [nl] ++
      lit "xi=  " ++ xi ++ lit "  v=1.0" ++ [nl] ++
      lit "isyd=1" ++ [nl]).
(** lines 1590-1595 *)
Definition pod_preamble (n : nat) : str :=
  lit "nsymo=4 icent=1 brv='p' io=" ++ show_nat n ++ [nl] ++
  lit "symmetry operator" ++ [nl] ++
  lit "x,z,t,u,v,y            5f" ++ [nl] ++
  lit "-x,-y,-v,-u,-t,-z      2f" ++ [nl] ++
  lit "-v,-y,t,z,-u,-x        2f" ++ [nl] ++
  lit "y,z,x,v,-t,-u          3f" ++ [nl].
(** lines 1628-1629 *)
Definition pod_trailer : str :=
  [nl] ++ lit "100000000000000000000000000000000000000000000000000000000000" ++ [nl] ++
  lit "000000000000000000000000000000000000000000000000000000000000" ++ [nl].
(** for i in range(len(l)): f(i+1, l[i]) *)
Definition numbered {A} (f : Z -> A -> res str) (l : list A) : res str :=
  ts <- mapM (fun p => f (Z.of_nat (S (fst p))) (snd p)) (combine (seq 0 (length l)) l) ;; Ok (concat ts).
Definition write_podatm_text (o : podobj) (position : vec) (vlist : list (list Z)) (shft : list (F N)) :
    res (Z * option (str * str)) :=
  '(r, d) <- write_podatm N o position vlist shft ;;
  match d with
  | Some (atm, pods) =>
      a <- numbered atm_text atm ;;
      p <- numbered (fun i d => t <- pod_text i d ;; Ok (t ++ pod_trailer)) pods ;;
      Ok (r, Some (a, pod_preamble (length vlist) ++ p))
  | None => Ok (r, None)
  end.
End PodText.
