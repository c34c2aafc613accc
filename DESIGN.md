# Formal model of boostorg/safe_numerics in Rocq (Coq 8.16.1)

This document says what is modelled, how each property of `properties.jsonl`
is stated and proved, and what is trusted. It was written before the proofs
and is kept current.

## 1. Shape of the model

Sources are C++14 templates. The model is an executable, total Gallina
transcription with three stages:

| stage | C++ | model |
|---|---|---|
| type level | template instantiation, `constexpr` interval computations, `static_assert` | functions into `option` / `res` (`None`/`UB` = does not compile) |
| run time, pure | `checked::*`, `safe_compare::*`, interval and checked_result operators | functions into `res` (`UB` = undefined behaviour executed) |
| run time, with policy | operators of `safe_base` | `M A` = list of handler calls × (value / thrown error / UB / trapped) |

* **C++ integer arithmetic** (`CType.v`): built-in integer types under five
  data models (LP64 with signed or unsigned `char`, LLP64, ILP32, 16-bit
  `int`), integral promotion, usual arithmetic conversions, conversion
  (modulo 2^w: implementation-defined for signed targets, as on every
  two's-complement compiler), and the operators `+ - * / % << >> | & ^ ~ < ==`
  with *every* C++14 undefined case returning `UB`: signed overflow, division
  by zero, `MIN / -1`, `MIN % -1`, shift by a negative or too large count,
  left shift of a negative value or of a value whose shifted bits leave the
  unsigned type. Every arithmetic expression of the library that can overflow is written
  with these operators and not with mathematical ones.
* **Values** are `Z`. A built-in value of type `T` is a `Z` in `[lo T, hi T]`.
* **Types** of operands: `ORaw T`, `OSafe {Stored, Min, Max, P, E}`,
  `OLit T N P E`.
* **Handlers** of an exception policy: `HThrow`, `HIgnore`, `HTrap`. A user
  handler that returns is `HIgnore` (its call is in the trace), one that
  throws is `HThrow`. `HTrap` is a compile error if the dispatch to it is
  instantiated; if it were reached the model yields `Trapped`.

## 2. Files

Model files contain definitions only; each definition cites the lines it
models. Proof files contain lemmas. `Props*.v` contain only the property
theorems, each closed by `exact <lemma>` followed by `Print Assumptions`, and
`Example`s showing that a concrete non-trivial case meets the hypotheses.
`Spec.v` is the small independent specification (pure integer arithmetic)
that the statements use.

`Conformance*.v` (generated by `tools/mkconformance.py`) evaluate the model on
the operands of the project's own table-driven tests in `/repo/test` and compare
with the expected-result tables there: binary operators and comparisons under
native and automatic promotion, assignment, `checked::cast`, `safe_compare` and
all operators of `checked_result`. There is no disagreement. The committed
files check one entry of each row of the large tables (Coq's independent checker
evaluates slowly); `FULL=1 tools/mkconformance.py` generates the complete tables,
which were also checked once. `ConformanceInterval.v` carries out
`test_interval.cpp` and `ConformanceMisc.v` the examples 1-20 and 81-83 and the smaller
tests; there the model agrees with what the code asserts, but two comments of the
project are wrong about it (`example11.cpp:42`, where nothing is thrown, and
`test_trap.cpp:39-40`, where the instances for int8_t and int16_t do not compile). These
are checks of the transcription, not properties of the library.

## 3. Properties and how they are treated

| id | modelled by | proof method |
|---|---|---|
| C01-C04, C10 | CheckedInteger | case analysis on type class, `lia`/`nia` on exact bounds |
| C05 | CheckedInteger | refuted at (MIN, MIN); proved for all other operands (`_partial`) |
| C06 | CheckedInteger, Utility | `significant_bits` = floor log2 + 1, power-of-two monotonicity |
| C07 | CheckedInteger | refuted when the count equals the width of an unsigned type at least as wide as `unsigned`; proved otherwise (`_partial`) |
| C08 | CheckedInteger | bit-level lemmas on `Z.lor/land/lxor/lnot` ranges |
| C09, C11 | CheckedInteger, SafeCompare | reflection over type pairs (finite) + `lia` over values |
| C12 | Utility | log2 characterisation, reflection over candidate types |
| C13, C14 | CheckedResultOps | concretisation function from checked results to sets of integers |
| C15, C16, C18, C19 | Interval | monotonicity, corner lemma for products and quotients, induction over `minmax` |
| C17, C20 | Interval | expected false: refuted with witnesses, partial theorems |
| C21-C23, C37 | SafeBase | interval soundness + checked operations |
| C24 | SafeBase | native/cpp; automatic expected false (narrow result type used for operands): refuted + partial |
| C25-C28 | SafeBase | expected false in corner cases: refuted + partial theorems with explicit side conditions |
| C24-C27, all outcomes | SafeBase, OutcomeSpec | for every policy and operand: what is returned, thrown or undefined, separately for checked and unchecked operations, and when an operation is unchecked |
| C29-C32 | SafeBase | as C21 |
| C33, C34 | Program | induction over statement sequences |
| C35 | Program | induction over expression trees |
| C36, C41 | SafeBase | trace invariant |
| C38, C40, C45 | Promotion | reflection / interval algebra; refuted parts stated |
| C39, C49 | SafeBase | as C21 with the built-in operator as reference |
| C42 | ExceptionPolicy | finite case analysis; expected false for precision_overflow_error |
| C43, C44, C48 | SafeBase, Stream | expected false: refuted + partial |
| C46 | SafeBase (literals) | as C30/C31 |
| C47 | SafeBase | commutativity of interval and checked operations |
| C50 | Program | induction over conversion chains |
| C51 | SafeBase | two runs with different policies compared |
| C52 | Program | invariant over program states: initialised variables |
| C53, C54 | Program, BuiltinSpec | simulation between the safe program and a built-in program, induction on fuel |
| C55 | Stream, StreamSpec | induction over digit strings and sequences of values |
| C56 | SafeBase | the interval computation always succeeds (IntervalTotal) and always asks for a check where one is needed; run-time part by the characterisations of C21-C29 |
| C57 | SafeBase, Program, ToldSpec, NamedPolicy | inversion of the policy computation; induction on expressions; equivalence of policies compared by identity and by behaviour |
| C58 | ExceptionPolicy | case analysis; expected false in part |
| C59 | SafeBase | interval algebra; refuted parts stated |
| C60 | SafeBase | the bounds computed at compile time are attained (corner lemma), so a check that is made can fail |
| C61 | SafeBase | as C60; for / the four or eight corner quotients (QuotFacts); shifts of non-negative ranges (TightFacts) |
| C62 | SafeBase | determinism of the checked path + exactness of the elided path |
| C63 | SafeBase | the representable case of C29 for every policy |
| C64 | Program, TrapSpec | induction over programs against a deterministic exact interpreter |
| C65 | Program, TrapSpec | under a trap policy only elided paths compile, and those do not mention the policy |
| C66 | Program, RetypeSpec, IOProgram, ArrayProgram, PortIOSpec | C33 (C73, C87, C88) for both programs and determinism of the exact semantics of programs that raise nothing; decimal representations are unique |
| C67-C69 | CheckedResultOps, CheckedShiftSpec | as C13; the recursion of the shift operators is unfolded (depth at most 3); refuted parts stated |
| C70 | SafeBase | as C39 for `%` `<<` `>>`; false at MIN % MIN |
| C72 | SafeBase, CompileSpec | totality of the interval computation (IntervalTotal) and of the type computations; converses by exhibiting the undefined corner |
| C73 | Program, ComposeSpec | the induction of C33/C35 with two kinds of results: exact and inside the declared range, or exact and inside the underlying type, the latter only where a wide enough target absorbs it; witnesses show what happens otherwise |
| C74 | Program, BuiltinSpec, ComposeSpec, BuiltinAllSpec | the simulation of C53/C54 over the conditions of C73; a shift or remainder that returns is shown to have a defined built-in counterpart |
| C75 | Limits | the redefined members are the declared bounds (with C30 and C21-C23); digits by reflection over the types |
| C76 | Limits, Stream | the text is cut at its separators, decimal numerals are unique; hexadecimal numerals by induction on their digits |
| C77 | FloatCast | a floating point number is m * 2^e; truncated division |
| C78 | Promotion, SafeBase | the interval of shifted values bounds every result, so the stored type holds them; then the case analysis of C26/C27 |
| C79 | Program, SafeBase | under a trap policy an operator that compiles is the same computation as under a throwing one (C65) and is silent (C36), so the alternative "throws" of C73 cannot happen; induction over expressions and commands |
| C80 | Motor, MotorSpec | each statement evaluates to its mathematical value because its operands are in range (ValueFacts); invariant after k interrupts; the delays stay in range because c_k^2 (4k+1) does not decrease and, later, the quotient becomes 0; single-step moves by a second invariant |
| C81 | SafeBase | from C29 and C63; induction on the sequence |
| C82 | Program, SafeBase | from C35 (an expression returns its mathematical value or throws), C24 and C25 |
| C83 | Program, OrderSpec | operands have no effects besides reports and exceptions; induction over expressions, programs and fuel; interleaved operator calls (Interleave): every step keeps the value in the end |
| C84 | SafeBase, NarrowSpec | check elision characterised by the values of the ranges (C24 to C27, C60); bounds of products and of quotients as minima over the corners; refuted for the ranges of / by a range ending in 0 and of %, >> with negative counts and automatic promotion |
| C85 | Threads, ThreadsSpec, Fine, FineSpec | small-step semantics of programs with threads; every step of a reachable state is one of exact arithmetic (invariant over all schedules, from C33 and C73 for single statements); equivalent to Program.v for one thread; again with steps as small as one variable access, operator call, conversion or comparison, which includes the schedules of whole statements |
| C86 | Threads, ThreadsSpec | a step reads and writes only the variables that the thread uses, and these only get fewer; so every reachable state projects to a run of each thread alone |
| C87 | IOProgram, IOProgramSpec | induction over the program, from C33 and C73 for the statements without input and C44 and C55 for input and output. No false alarm (IOLossSpec): induction on the lossless execution, from C54 and C74 |
| C88 | ArrayProgram, ArraySpec | induction over the program, from C33 and C73; a subscript is converted to `std::ptrdiff_t` by the conversion operator (C31) |
| C89 | ErrorText | case analysis on errors; texts are split at the colon; decimal representations are unique (C55) |
| C90 | Promotion, Program, EmulationSpec | the result type by cases on ranks and signs; exactness of + - * / % (C38, C79, C24, C25) and of & \| ^ << >> on operands that are not negative gives the target's evaluation of an expression; induction on programs and fuel, and for the converse on the run of the target, with monotonicity in the fuel |
| C91 | FunProgram, FunSpec | induction on the depth of calls and on the program, from C33 and C73 for the statements without calls; a call converts arguments and result (C30, C31). No false alarm (FunLossSpec): induction on the lossless execution, from C54 and C74 |
| C92 | ConstSpec | a constant expression is an evaluation that returns; the characterisations of every operator (C21-C28, the outcomes of C24-C27) then give its value, since undefined cases are rejected; expressions from C33 and C73 |
| C93 | BoolConv | bool as an unsigned type of two values, promoted to int in comparisons; the cast and the static decision by cases on the position of the value and the bounds; conditions by induction on the condition |
| C94 | Motor2, Motor2Spec | each statement evaluates to its value or raises (ValueFacts); refinement of an interrupt to a step of a pure function on (state, step, denominator, delay); distances up to 438 by reflection on that function (219 cases), longer ones by induction on the constant-speed phase; the escape of the other distances and the overflow of the timer by induction; histories by induction |
| C95 | Program, TermSpec | induction on the termination of the exact program; loops by induction on the distance of the quantity from its bound, using the simulation of C33; fuel is shown sufficient explicitly |
| C96 | ElemInterval | element operations from C35 and C63; minmax by induction over the list; corners bound all results by monotonicity |
| C97 | Powm | loop invariant x * y^b = a^b0 modulo c; each operation exact by the value lemmas (the doubled type holds every product); b halves each turn |
| C98 | Interval, ElemInterval, IvOrderSpec | case analysis on which ends are infinite; witnesses for the converse directions; <= >= and, for two infinite ends, includes and == refuted |
| C99 | ChainProgram, ChainSpec | induction on the nesting of assignments, with the place (variable or temporary) each denotes; lost updates proved; the unrestricted claim refuted |
| C100 | SafeBase, Program, ToldSpec, ToldProgSpec, ToldMoreSpec | each operator calls handlers of the common policy only, with errors whose handlers were compiled; induction on expressions and programs |
| C101 | BaseStream, BaseStreamSpec | as C44 and C55, with the base as a parameter; a negative value is written as a number above the largest one of its type |
| C102 | BaseProgram, BaseProgramSpec | as C87, with the base of each stream in the state; C101 for each read and write. No false alarm (BaseLossSpec): as for C87; the text of a value is unique |
| C71 | Promotion, Utility | the interval of results is attained at the corners, the stored type is the least that holds them |

## 4. What is modelled and what is not

Modelled, function by function (each definition cites its lines):

| /repo/include/boost/safe_numerics | model file |
|---|---|
| `utility.hpp` (bits, significant_bits, round_out, stored types, min/max) | Utility.v |
| `checked_default.hpp`, `checked_integer.hpp` (cast, + - * / %, shifts, bitwise, comparisons) | CheckedInteger.v |
| `safe_compare.hpp` | SafeCompare.v |
| `checked_result.hpp`, `checked_result_operations.hpp` | CheckedResult*.v |
| `interval.hpp` | Interval.v, ElemInterval.v |
| `exception.hpp`, `exception_policies.hpp` | ExceptionPolicy.v |
| `native.hpp`, `automatic.hpp`, `cpp.hpp` | Promotion.v |
| `safe_base.hpp`, `safe_base_operations.hpp` (construction, conversion, operators, comparisons, compound assignment, ++ --, stream input and output) | SafeBase.v, Program.v, Stream.v, BaseStream.v |
| `safe_integer.hpp`, `safe_integer_range.hpp`, `safe_integer_literal.hpp` | SafeBase.v, Promotion.v (type abbreviations, literals) |
| `range_value.hpp`, output of intervals in `interval.hpp`, `numeric_limits` in `safe_base.hpp` and `safe_integer_literal.hpp` | Limits.v |
| evaluation of an expression one operator call at a time (the C++ rules on unsequenced operands) | Interleave.v |
| programs with threads: shared variables, no other state (`safe_base.hpp` m_t, the constants of `exception.hpp`, `utility.hpp`) | Threads.v, Fine.v |
| programs that read and write variables (`safe_base.hpp` operator>>, operator<<; `example84.cpp`) | IOProgram.v, BaseProgram.v (with std::hex and std::oct) |
| programs with arrays subscripted by safe values (`safe_base.hpp` operator R) | ArrayProgram.v |
| programs with functions: conversions of arguments and results (`safe_base_operations.hpp` constructors, operator R); frames, recursion, && \|\| ! | FunProgram.v |
| assignments as operands of assignments (`safe_base.hpp:198-234`, the return types of `safe_base_operations.hpp:486-1769`) | ChainProgram.v |
| exception policies compared by the identity of their classes (`safe_base_operations.hpp:248-285`) | NamedPolicy.v |
| texts of errors and checked results (`exception.hpp`, `checked_result_operations.hpp` operator<<) | ErrorText.v |
| constant expressions (constexpr functions of `safe_base.hpp`, `safe_base_operations.hpp`; `throw_exception` is not constexpr) | ConstSpec.v |
| conversions between safe integers and `bool` (`safe_base_operations.hpp:100-148,219-243`, `checked_integer.hpp:79-142`, `safe_compare.hpp:27-80`) | BoolConv.v |
| `example/motor3.c`, `example/example93.cpp` (arithmetic, control flow, registers; not sleeping, output, TMR1ON) | Motor.v |
| `example/motor2.c`, `example/example92.cpp` (arithmetic, control flow, registers; not sleeping, output, the timer's own counting) | Motor2.v |
| `test/test_performance.cpp` (`multiply`, `integer_modulus`, `powm`, `bit_test` over `safe<unsigned>`; not Boost.Multiprecision's primality test itself) | Powm.v |
| `checked_integer.hpp` (floating point to integer cast) | FloatCast.v |

Simplifications, also stated in the comments of the definitions concerned:

* error messages are dropped except in ErrorText.v; an error is its `safe_numerics_error` code;
* a handler of an exception policy is one of three behaviours (throws, returns,
  does not compile when instantiated); two policies are compared by the
  behaviours of their four handlers and not by the identity of their types, so
  the model compiles some mixed-policy expressions that C++ rejects because the
  two policies are different types with equal behaviour (exactly which ones is
  proved in C57_identity, over NamedPolicy.v, where policies have an identity;
  what compiles there compiles in the rest of the model, with the same types);
* conversions between two built-in types written by the user are not part of the
  library and do not appear;
* intervals are modelled over `checked_result<R>` elements, the only way the
  library uses them (Interval.v), and over built-in and safe integers
  (ElemInterval.v), not over floating point elements;
* stream text is a list of characters; locale facets, width, precision and the
  `eof`/`bad` bits are dropped (see Stream.v);
* overload resolution is assumed to select the operator templates for integer
  operands; concept checks (`concept/*.hpp`) and `legal_overload` are not modelled.

Not modelled at all: floating point apart from the cast of a floating point value
to an integer type (so `checked_float.hpp`, integer to float casts, and `safe`
types mixed with floats), `safe<bool>` and arithmetic with `bool` operands (the conversions
between safe integers and `bool` are modelled, BoolConv.v), `wchar_t`, `char16_t`, `char32_t`,
extended integer types, the cast of an integer to a floating point type
and the input operator of `checked_result` (neither can be instantiated in C++14),
`operator~` of `checked_result` (it names a member that does not exist) and its
converting constructor in `checked_result.hpp` (the same), `std::numeric_limits` members that matter for floating
point only, compiler behaviour outside the language rules of
section 1.

## 5. Trusted base

* Coq 8.16.1: the kernel, including its conversion by virtual machine
  (`vm_compute` is used for finite reflection and for concrete examples).
  `native_compute` is not used. No kernel check is switched off.
* `Print Assumptions` is printed below every property theorem: each answers
  "Closed under the global context". No axiom, no `Admitted`, no `Parameter`, no
  functor or module type is used in `theories/`.
* `coqchk -o` lists as context only declarations inside module types of the
  standard library that are loaded with `lia`/`ssreflect`
  (`Coq.ssr.ssrunder.Under_rel.*`); no theorem depends on them.
* The faithfulness of the transcription. It is checked three ways: by the
  citations, by the `Conformance*.v` files and by the seeded bugs of `seeded/`.
* The semantics recalled for code that is not in /repo: integral promotions,
  usual arithmetic conversions and undefined cases of C++14 (CType.v);
  `boost::int_t`/`uint_t` (`least` types, Utility.v); `boost::logic::tribool`
  (Base.v); formatted integer extraction and insertion of `std::istream` and
  `std::ostream` (Stream.v, BaseStream.v); conversion of an out-of-range value to a signed type
  is taken modulo 2^w, right shift of a negative value is arithmetic (both are
  implementation-defined in C++14 and so defined by all usual compilers).

## 6. Findings

Properties that are false of the code, each with a theorem `..._refuted` giving a
concrete witness:

| id | finding |
|---|---|
| C05, C25, C45, C70 | `MIN % MIN` is `MIN` in `checked::modulus` (should be 0), because `-MIN` overflows and the dividend is returned |
| C07 | `checked::right_shift` of an unsigned type by exactly its width executes an undefined shift |
| C17 | the interval of `[0,10] % [7,7]` is computed as `[0,3]`: remainders are not monotone. For `[a,b] % c` with `0 <= a`, `0 < c`, C17_constant_divisor gives the exact condition: right iff `a/c = b/c` or `{a % c, b % c} = {0, c-1}` (so `[0,99] % 10` is right and `[0,100] % 7` is not) |
| C20 | `intersect` answers true for any two nonempty intervals |
| C24, C45 | under automatic promotion `/` is made in a type chosen for the quotient only: `range<0,60000>(1000) / range<50000,60000>(50000)` is 2, and with 51200 it divides by zero |
| C25 | the declared range of `%` can exclude the result; `MIN % -1` executes undefined behaviour for some type pairs |
| C25 | under automatic promotion `%` is made in a type chosen for a bound of the remainder: `range<0,1000>(499) % range<-500,500>(500)` is -13 and `range<0,1000>(499) % range<100,500>(500)` is -1 (should be 499), with no exception |
| C26, C27 | shifts under automatic promotion: undefined shifts and values outside the declared range |
| C28 | `\|`, `^` of negative operands and `~` of signed types give values outside the declared range: in a signed type `a \| b` is inside exactly if neither operand is negative (C28_or_exact), `~a` exactly if `a` is negative (C28_complement_exact) |
| C34, C44, C55 | stream input can leave an out-of-range value, reads `char` as a character, rejects "-0" for unsigned types |
| C38 | under automatic promotion `range<100,200>(200) - range<100,200>(150)` throws: it is computed in `signed char`, which holds the difference but not the operands |
| C40 | `cpp<...>` with the platform's sizes is not native promotion (`unsigned char + unsigned char` is `unsigned`, `long + long long` can be `long`) |
| C42 | `precision_overflow_error` belongs to no `std::error_condition` |
| C43 | after an ignored error `a - b` returns `a + b`; an ignored conversion error reads the value of a result that has none |
| C45 | `<<`, `>>` and bitwise operators differ between data models (not if no value is negative and the results fit: C45_bitwise_partial, C45_left_shift_partial, C45_right_shift_partial) |
| C47 | `+` under `cpp<8,8,16,16,16>` is not commutative |
| C52 | the default policies allow reading an uninitialised safe value |
| C53 | mixed-sign comparisons differ from the built-in ones (they are exact) |
| C56 | `safe<int>`: `MIN % MIN` is `MIN`; `safe<unsigned>(1) >> 32` executes an undefined shift |
| C58 | the strict exception policy does not throw on uninitialised values; the loose policy executes the undefined shift it was told about |
| C59 | constructing an unsigned range from a negative range always fails, but only at run time; conversion to a built-in type under a trap policy does not use the declared range |
| C60 | a comparison decided at compile time does not compile under a trap policy |
| C72 | `safe<unsigned> >> c` does not compile if the declared range of `c` ends exactly at 32 (it does for 31 and for 33); bitwise operators do not compile for ranges of negative numbers |
| C73 | declared ranges that are too narrow make later operators unchecked: `(safe<unsigned>(5) >> 1) * 3000000000u` is 1705032704 without an exception; with `x` a `safe<int>` and literals, `(x % 7) * 1000000000` and `0 - (x \| x)` can execute signed overflow; `safe_unsigned_range<0, 5> r = x % 10` can store 7 |
| C74 | `safe<int>(-20) << 0` returns -20, where the built-in shift is undefined; `safe<int>(0) << 31` throws although nothing is lost |
| C75 | `numeric_limits<safe_unsigned_range<0,10>>::digits10` is 2, but 99 is rejected; `is_modulo` is true for `safe<unsigned>`, whose overflow throws |
| C76 | `make_result_display(safe<int>(-1))` prints `[80000000,7fffffff]ffffffff(-1)`; `make_range_value((signed char)65)` prints `[-128,127]A` |
| C77 | `checked::cast<int>(3e9)`, of an infinity and of NaN execute an undefined conversion; no floating point value gives an error; a safe integer cannot be constructed from a floating point value at all: the constructor is a compile error for every floating type (C77_construct) |
| C78 | under automatic promotion `range<0,1000>(1000) >> range<4,4>(4)` throws: it is computed in a type that holds the result but not the operand |
| C79 | under `strict_trap_policy`: `safe_signed_range<-5,100> << 3` (literal 3) compiles and is undefined for negative values; `safe_unsigned_range<0,2> w = r % 7`, r a `safe_unsigned_range<0,100>`, compiles and stores 6 when r is 20 |
| C80 | the motor example never finishes a move of a single step: m / 2 is 0, the counter is incremented before it is compared with it, and the motor runs to the end of its range, where `++motor_position` (or `--`) throws; also `ramp_const` is never reached |
| C84 | `[0,100] / [-5,5]` has the declared range `[-100,100]`, `[0,100] / [0,5]` the range of int; `[0,10] % 7` has `[0,3]`, `[0,6] % 7` has `[0,6]`; under automatic promotion `[0,200] - [0,200]` is never checked, `[100,200] - [100,200]` throws |
| C87 | after a caught input error the program goes on with a value outside the declared range: `v` in `<1,1000>`, input 20000 (rejected): `v + v` is not checked, and -25536 is stored in a variable declared `<2,2000>`; with the input "x", `v1 /= v` divides by zero |
| C88 | `a[x % 10]`, x a `safe<unsigned>` and 10 a literal: the subscript is declared `[0,5]`, yet it can be 9; with x = 7 an array of six elements is accessed out of bounds |
| C89 | a `checked_result<unsigned char>` (or `char`) is written as a character |
| C90 | `cpp<8,16,16,32,64>`: unsigned char 255 * 255 returns 65025, but overflows the 16-bit int of the emulated platform (unsigned types narrower than int are promoted to unsigned int) |
| C90 | `cpp<...>`: `safe_signed_range<-5,100>` -3 compared with `safe_unsigned_range<200,300>`: true on the host, false with built-in types on the target |
| C90 | `cpp<...>`: the type of `x << n` depends on the type of `n` |
| C90 | `cpp<8,16,16,32,64>`: 0 << 15 raises an exception on the emulator; it is 0 on a target with a 16-bit int (a false alarm) |
| C90 | `cpp<8,16,16,32,64>`: minus of a 16-bit -32768 returns 32768, an overflow on the target (it is `0 - x` with the host's int) |
| C90 | `cpp<8,16,16,64,64>`: `++x` throws for a 64-bit x = 2^40 (the host's int is none of the five types and ranks above them) |
| C90 | `cpp<8,16,16,16,32>` (example92.cpp): a 16-bit unsigned 0 minus the literal 1 is -1 on the host and 65535 on the target (a literal keeps its host type) |
| C92 | `safe_signed_range<0,7>` 5 << a `long` range value -4294967296 is accepted in a constant expression and gives 5 (the count is cast to int); MIN % MIN is accepted and gives MIN; with automatic promotion `1000 / 50000` of two ranges gives 2 |
| C93 | `if (x)` for a safe integer `x` is not a test for non-zero: it converts `x` to bool with a range check, so it raises for every value other than 0 and 1 (`while (n) --n;` raises for `n = 2`); it compiles for a declared range such as [5,9], where it always raises |
| C96 | `interval<T>` for a built-in T: bounds that do not fit wrap silently (`[100,100] + [100,100]` is `[-56,-56]` for signed char), `[0,0] - [0,1]` is `[4294967295,0]` for unsigned; `*`, `/`, `%`, shifts do not compile for types narrower than int (narrowing in braces) |
| C96 | dividing intervals over a safe type that does not include 0 always throws: the check that the divisor excludes 0 constructs `T(0)` first |
| C97 | test/test_performance.cpp `bit_test(val, index)` throws positive_overflow_error for every bit that is set, except bit 0: `val & mask ? true : false` converts a safe value larger than 1 to bool (see C93) |
| C98 | interval.hpp `[3,3] <= [3,3]` is indeterminate (`!(t > u)` of an indeterminate answer), as is every `i <= i`; an interval with an overflowed bound is not `==` itself and does not include itself |
| C99 | `++(v += 5)`, `(v += 5) = 100` compile and leave `v + 5` in v: compound assignments return a copy, and `=`, `++`, `--` may be called on it; `(v += 5) += 5` does not compile; `(v = 5) = v` with the right operand first assigns 5, not the old value, since operands are references |
| C95 | `while (x % 10 < 7) x = 8 - x;` with `safe<unsigned> x = 0` and literals never ends (in exact arithmetic it ends after one turn): `x % 10` is declared [0,5], so the comparison is decided at compile time |
| C94 | in the second motor example (`motor2.c`, `example92.cpp`) `CCPR1H = ccpr >> 8` compiles to an unchecked assignment, because the declared range of `ccpr >> 8` is [0,0] (C27): the 8-bit safe register silently receives the low bits of a value of up to 24 bits |
| C94 | the same program does not stop at its target if the distance is 221, 223..436 or 438: it re-enters the constant-speed state at a `step_down` that is already past, and runs on until an overflow is raised |
| C94 | its timer value `ccpr` is never reduced, so moves of more than 6275 steps raise; repeated calls for the present position each add a delay to it and raise in the end; moves of up to 220 steps are not decelerated; `make16` computes `l << (8 + r)` instead of `(l << 8) + r` |
| C44 | where char is unsigned, the character '-' cannot be read into a safe char |
| C66 | `v1 = v0 % v0` with v0 = -2147483648 gives -2147483648 with safe<int> and 0 with safe<long> |
| C82 | `MIN / MIN * MIN + MIN % MIN` is not MIN, as `MIN % MIN` is MIN |
| C67 | `checked_result >> width` executes an undefined shift for unsigned types |
| C69 | overflow `% 5` is reported as the value 4 |

Further observations made while transcribing (not theorems): `checked_default`'s
`equal` returns `t < u`; the wrappers `checked::less_than` and the converting
constructor of `checked_result` do not compile when instantiated; the
`static_assert` in the literal operators is vacuous; a compound assignment
`range<2,10> %= range<4,4>` can store 0; `safe<unsigned> u = (safe<int>(-1) |
safe<int>(0))` stores 4294967295; bitwise operators with a negative `Max` do not
compile; `checked_float.hpp` is malformed.
