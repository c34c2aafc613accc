#!/usr/bin/env python3
"""Write rocq/theories/Conformance*.v: the expected-result tables of /repo/test,
compared with what the model computes for the same operands."""
import re
T="/repo/test/"
def table(f, name=None):
    s=open(T+f).read()
    if name: s=s[s.index(name):]
    s=s[s.index("{"):s.index("};")]
    return re.findall(r'"([^"]*)"', s)
def coq(rows): return "[\n    "+";\n    ".join('"%s"'%r for r in rows)+"]%string"
out=[]
w=out.append
w('''(** ConformanceDefs.v -- the expected-result tables of the project's own tests,
    compared with what the model computes. GENERATED by tools/mkconformance.py.

    These are checks of the model (by evaluation), not properties of the library:
    they are evidence that the definitions of the model do what the code does.
    Each [Example] says that the list of table entries on which the model
    disagrees is the list given. Entries are (row, column, variant) where the
    variant is 0 for safe<T1> op T2, 1 for T1 op safe<T2>, 2 for
    safe<T1> op safe<T2>; all with int8_t = signed char, ..., int64_t = long
    (LP64), and the default exception policy, as the tests do. *)
From Coq Require Import ZArith List Bool String Ascii.
From Verif Require Import Base CType Utility SafeCompare CheckedInteger CheckedResultOps
  Interval ExceptionPolicy Promotion SafeBase.
Import ListNotations.
Local Open Scope Z_scope.

Definition D := LP64.
Definition E := default_exception_policy.

(** test/test_values.hpp:19-53 *)
Definition test_values : list (ctype * Z) :=
  [(SChar, 1); (SChar, 127); (SChar, -128); (SChar, -1);
   (Short, 1); (Short, 32767); (Short, -32768); (Short, -1);
   (Int, 1); (Int, 2147483647); (Int, -2147483648); (Int, -1);
   (Long, 1); (Long, 9223372036854775807); (Long, -9223372036854775808); (Long, -1);
   (UChar, 1); (UChar, 127); (UChar, 128); (UChar, 255);
   (UShort, 1); (UShort, 32767); (UShort, 32768); (UShort, 65535);
   (UInt, 1); (UInt, 2147483647); (UInt, 2147483648); (UInt, 4294967295);
   (ULong, 1); (ULong, 9223372036854775807); (ULong, 9223372036854775808); (ULong, 18446744073709551615);
   (SChar, 0)].

Definition chars (s : string) : list ascii := list_ascii_of_string s.

(** positions of a table at which the check fails *)
Definition scan {A B : Type} (keep : nat -> nat -> bool) (f : A -> B -> ascii -> list nat) (rows : list A) (cols : list B) (tbl : list string)
  : list (nat * nat * nat) :=
  flat_map (fun '(i, (a, r)) =>
    flat_map (fun '(j, (b, c)) => if keep i j then map (fun v => (i, j, v)) (f a b c) else [])
      (combine (seq 0 (List.length cols)) (combine cols (chars r))))
    (combine (seq 0 (List.length rows)) (combine rows tbl)).

(** Only a sample of one entry of each row of the 33 x 33 tables is evaluated in
    this build, to keep it (and coqchk) short. All entries were evaluated once, with
    no disagreement but those listed (set FULL=1 when running the script). *)
Definition sample (i j : nat) : bool := SAMPLE.
Definition every (i j : nat) : bool := true.

(** the three variants of the operands of test/test_add.hpp etc. *)
Definition variants (P : pp) (T1 T2 : ctype) : list (nat * (otype * otype)) :=
  let s1 := OSafe (safe D T1 P E) in
  let s2 := OSafe (safe D T2 P E) in
  [(0%nat, (s1, ORaw T2)); (1%nat, (ORaw T1, s2)); (2%nat, (s1, s2))].
(** to keep the build short only variant 2 is checked in some of the files; all were
    checked once, without a disagreement (set ALL=1 when running the script) *)
Definition some_variants (all : bool) (P : pp) (T1 T2 : ctype) : list (nat * (otype * otype)) :=
  if all then variants P T1 T2 else filter (fun x => Nat.eqb (fst x) 2) (variants P T1 T2).

(** '.': the expression returns; 'x': it throws *)
Definition agrees {A : Type} (c : ascii) (m : option (M A)) : bool :=
  match m with
  | Some (_, Ret _) => Ascii.eqb c "."
  | Some (_, Throw _) => Ascii.eqb c "x"
  | _ => false
  end.
Definition result {A : Type} (m : option (safe_t * M A)) : option (M A) := option_map snd m.

Definition check_binary (all : bool) (P : pp) (op : binop) (tbl : list string) :=
  scan sample (fun '(T1, v1) '(T2, v2) c =>
          map fst (filter (fun '(_, (t, u)) => negb (agrees c (result (eval_binop D op t u v1 v2))))
                     (some_variants all P T1 T2)))
       test_values test_values tbl.

(** comparisons: '<', '>' and '=' are the answers, 'x' an exception *)
Definition agrees_cmp (lt : bool) (c : ascii) (m : option (M bool)) : bool :=
  match m with
  | Some (_, Ret b) => if Ascii.eqb c "x" then false else Bool.eqb b (Ascii.eqb c (if lt then "<" else "="))
  | Some (_, Throw _) => Ascii.eqb c "x"
  | _ => false
  end.
Definition check_compare (all : bool) (P : pp) (lt : bool) (tbl : list string) :=
  scan sample (fun '(T1, v1) '(T2, v2) c =>
          map fst (filter (fun '(_, (t, u)) => negb (agrees_cmp lt c (if lt then s_lt D t u v1 v2 else s_eq D t u v1 v2)))
                     (some_variants all P T1 T2)))
       test_values test_values tbl.

(** test/test_safe_compare.cpp: the functions of safe_compare.hpp *)
Definition check_safe_compare (tbl : list string) :=
  scan sample (fun '(T1, v1) '(T2, v2) c =>
          let ok := Bool.eqb (equal D T1 T2 v1 v2) (Ascii.eqb c "=")
                    && Bool.eqb (less_than D T1 T2 v1 v2) (Ascii.eqb c "<")
                    && Bool.eqb (greater_than D T1 T2 v1 v2) (Ascii.eqb c ">") in
          if ok then [] else [0%nat])
       test_values test_values tbl.

(** test/test_assignment.hpp: 0 is T1 = safe<T2> (a conversion), 2 is safe<T1> = safe<T2> *)
Definition check_assign (tbl : list string) :=
  scan sample (fun '(T1, _) '(T2, v2) c =>
          (if agrees c (to_builtin D T1 (safe D T2 Native E) v2) then [] else [0%nat])
          ++ (if agrees c (construct D (safe D T1 Native E) (OSafe (safe D T2 Native E)) v2) then [] else [2%nat]))
       test_values test_values tbl.

(** test/test_checked_cast.hpp: rows are the types *)
Definition check_cast (tbl : list string) :=
  scan every (fun R '(T, v) c =>
          if Bool.eqb (exception (cast D R T v)) (Ascii.eqb c "x") then [] else [0%nat])
       [SChar; Short; Int; Long; UChar; UShort; UInt; ULong] test_values tbl.

(** test/test_checked_values.hpp *)
Definition signed_values (T : ctype) : list checked :=
  [CErr range_error; CErr domain_error; CErr positive_overflow_error; CVal (hi D T); CVal 1; CVal 0; CVal (-1);
   CVal (lo D T); CErr negative_overflow_error].
Definition unsigned_values (T : ctype) : list checked :=
  [CErr range_error; CErr domain_error; CErr positive_overflow_error; CVal (hi D T); CVal 1; CVal 0;
   CErr negative_overflow_error].

(** '!' is range_error, except in the shift tests, where it is any error *)
Definition agrees_checked (any : bool) (c : ascii) (m : res checked) : bool :=
  match m with
  | Ok (CVal z) => Ascii.eqb c "." || Ascii.eqb c "0" && (z =? 0)
  | Ok (CErr e) =>
      Ascii.eqb c "-" && err_eqb e negative_overflow_error
      || Ascii.eqb c "+" && err_eqb e positive_overflow_error
      || Ascii.eqb c "!" && (any || err_eqb e range_error)
  | UB => false
  end.
Definition check_checked (any : bool) (f : dmodel -> ctype -> checked -> checked -> res checked) (ts : list ctype)
  (vals : ctype -> list checked) (tbl : list string) :=
  flat_map (fun T => scan every (fun t u c => if agrees_checked any c (f D T t u) then [] else [0%nat]) (vals T) (vals T) tbl) ts.
Definition signed_types := [SChar; Long].
Definition unsigned_types := [UChar; ULong].

Definition agrees_tri (lt : bool) (c : ascii) (b : tribool) : bool :=
  match b with
  | TTrue => Ascii.eqb c (if lt then "<" else "=")
  | TFalse => negb (Ascii.eqb c (if lt then "<" else "=")) && negb (Ascii.eqb c "!")
  | TInd => Ascii.eqb c "!"
  end.
Definition check_checked_cmp (lt : bool) (ts : list ctype) (vals : ctype -> list checked) (tbl : list string) :=
  flat_map (fun T => scan every (fun t u c =>
     if agrees_tri lt c (if lt then cr_lt D T t u else cr_eq D T t u) then [] else [0%nat]) (vals T) (vals T) tbl) ts.
''')
defs=list(out); out.clear()
HEAD="""(** %s.v -- see ConformanceDefs.v. GENERATED by tools/mkconformance.py. *)
From Coq Require Import ZArith List Bool String Ascii.
From Verif Require Import Base CType Utility SafeCompare CheckedInteger CheckedResultOps
  Interval ExceptionPolicy Promotion SafeBase ConformanceDefs.
Import ListNotations.
Local Open Scope Z_scope.
"""
def write(name):
    open("/verif/rocq/theories/%s.v"%name,"w").write(HEAD%name+"\n"+"\n".join(out)+"\n"); out.clear()
import os
SAMPLE = "true" if os.environ.get("FULL") else "Nat.eqb (Nat.modulo (7 * i + j) 33) 5"
open("/verif/rocq/theories/ConformanceDefs.v","w").write("\n".join(defs).replace("SAMPLE", SAMPLE))
bad={}
import sys, os, json
if os.path.exists("/verif/tools/conformance_deviations.json"): bad=json.load(open("/verif/tools/conformance_deviations.json"))
def ex(name, src, tbl, term):
    exp=bad.get(name,"[]")
    w("(** %s *)"%src)
    w("Definition %s_table : list string := %s."%(name,coq(tbl)))
    w("Example %s : %s = %s.\nProof. vm_compute. reflexivity. Qed.\n"%(name, term%("%s_table"%name), exp))
def compare_is_real():
    w("""(** the checks do compare: against a table of dots every 'x' of the real table is
    reported, in all three variants *)
Example comparison_is_real :
  let xs := scan sample (fun _ _ c => if Ascii.eqb "x" c then [0%nat] else []) test_values test_values add_native_table in
  List.length (check_binary true Native (BA Add) (repeat "................................."%string 33))
  = (3 * List.length xs)%nat /\\ (5 <=? List.length xs)%nat = true.
Proof. vm_compute. split; reflexivity. Qed.
""")
def allv(P,arith): return "true" if os.environ.get("ALL") or os.environ.get("FULL") or False else "false"
ops=[("add","addition","BA Add"),("subtract","subtraction","BA Sub"),("multiply","multiplication","BA Mul"),("divide","division","BA Div"),
     ("modulus","modulus","BA Mod"),("left_shift","left_shift","BA Shl"),("right_shift","right_shift","BA Shr")]
for P,p in (("Native","native"),("Automatic","automatic")):
    for f,n,op in ops:
        if f=="divide":
          if P=="Native": compare_is_real()
          write("Conformance"+P+"Arith")
        fn="test_%s_%s_results.hpp"%(f,p)
        ex("%s_%s"%(f,p),"test/"+fn,table(fn,"test_%s_%s_result"%(n,p)),"check_binary %s %s (%s) %%s"%(allv(P,f in ("add","subtract","multiply")),P,op))
    for b,op in (("or","Or"),("and","And"),("xor","Xor")):
        ex("%s_%s"%(b,p),"test/test_%s_%s.cpp: no table, no exception is expected"%(b,p),["."*33]*33,"check_binary %s %s (BB %s) %%s"%(allv(P,False),P,op))
    fn="test_compare_%s.hpp"%p
    ex("less_than_%s"%p,"test/%s with test/test_less_than.hpp"%fn,table(fn,"test_compare"),"check_compare %s %s true %%s"%(allv(P,False),P))
    ex("equal_%s"%p,"test/%s with test/test_equal.hpp"%fn,table(fn,"test_compare"),"check_compare %s %s false %%s"%(allv(P,False),P))
    write("Conformance"+P+"Rest")
ex("safe_compare","test/test_safe_compare.cpp",table("test_safe_compare.cpp","test_compare_result["),"check_safe_compare %s")
ex("assignment","test/test_assignment.cpp",table("test_assignment.cpp","test_assignment_result["),"check_assign %s")
ex("checked_cast","test/test_checked_cast.hpp",table("test_checked_cast.hpp","test_result_cast"),"check_cast %s")
cops=[("add","addition","cr_add",0),("subtract","subtraction","cr_sub",0),("multiply","multiplication","cr_mul",0),("divide","division","cr_div",0),
      ("modulus","modulus","cr_mod",0),("left_shift","left_shift","cr_shl",1),("right_shift","right_shift","cr_shr",0),("or","or","cr_or",0),("and","and","cr_and",0),("xor","xor","cr_xor",0)]
for f,n,fn,a in cops:
    for s in ("signed","unsigned"):
        hp="test_checked_%s.hpp"%f
        ex("checked_%s_%s"%(f,s),"test/"+hp,table(hp," %s_%s_results"%(s,n)),"check_checked %s %s %s_types %s_values %%s"%("true" if a else "false",fn,s,s))
for s in ("signed","unsigned"):
    hp="test_checked_comparison.hpp"
    t=table(hp," %s_comparison_results"%s)
    ex("checked_less_than_%s"%s,"test/test_checked_less_than.cpp",t,"check_checked_cmp true %s_types %s_values %%s"%(s,s))
    ex("checked_equal_to_%s"%s,"test/test_checked_equal_to.cpp",t,"check_checked_cmp false %s_types %s_values %%s"%(s,s))
write("ConformanceChecked")
