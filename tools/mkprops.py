#!/usr/bin/env python3
# Regenerates /verif/properties.jsonl (kept as a script so that the list can grow).
import json
I="include/boost/safe_numerics/"
P=[]
def p(id,title,statement,quantifier,why,anchors):
    P.append(dict(id=id,title=title,statement=statement,quantifier=quantifier,why_tests_cant=why,anchors=anchors))

p("C01","checked::add is exact or reports the right overflow",
  "For every integer type R and every pair of R values t,u: checked::add<R>(t,u) has no undefined behaviour; it holds the value t+u exactly when the mathematical sum is representable in R; otherwise it holds positive_overflow_error when the sum is above R's maximum and negative_overflow_error when it is below R's minimum.",
  "all data models, all built-in integer types R, all pairs of values of R",
  "2^128 operand pairs for 64-bit types; a test samples a handful, and freedom from undefined behaviour is not observable by running.",
  [I+"checked_integer.hpp: checked_operation::add, add_impl_detail",I+"checked_default.hpp: checked::add"])
p("C02","checked::subtract is exact or reports the right overflow",
  "For every integer type R and all t,u of R: checked::subtract<R>(t,u) has no undefined behaviour, holds t-u exactly when representable in R, and otherwise reports positive_overflow_error / negative_overflow_error according to the side on which t-u leaves R.",
  "all data models, all integer types R, all pairs of values",
  "The operand space cannot be enumerated and UB is invisible to tests.",
  [I+"checked_integer.hpp: subtract_impl_detail"])
p("C03","checked::multiply is exact or reports the right overflow",
  "For every integer type R and all t,u of R: checked::multiply<R>(t,u) has no undefined behaviour (including inside its own overflow test, for narrow and for widest types), holds t*u exactly when representable, and otherwise reports the overflow on the correct side.",
  "all data models, all integer types R (both the widened and the division-based algorithms), all pairs of values",
  "The division-based path for 64-bit types has sign/zero/minimum corner cases over 2^128 pairs.",
  [I+"checked_integer.hpp: multiply_impl_detail"])
p("C04","checked::divide is exact or reports an error",
  "For every integer type R and all t,u of R: checked::divide<R>(t,u) has no undefined behaviour; for u==0 it reports domain_error; otherwise it holds the quotient truncated toward zero exactly when representable, and reports positive_overflow_error in the single unrepresentable case minimum / -1.",
  "all data models, all integer types R, all pairs of values","Exhaustive division tests are infeasible for 64-bit operands; UB is not observable.",
  [I+"checked_integer.hpp: divide_impl_detail, checked_operation::divide"])
p("C05","checked::modulus is the C++ remainder or domain_error",
  "For every integer type R and all t,u of R: checked::modulus<R>(t,u) has no undefined behaviour; for u==0 it reports domain_error; otherwise it holds the remainder of truncated division (t - u*trunc(t/u)).",
  "all data models, all integer types R, all pairs of values","One wrong pair out of 2^128 is enough to violate it, and samples miss it.",
  [I+"checked_integer.hpp: modulus_impl_detail, checked_operation::modulus"])
p("C06","checked::left_shift multiplies by a power of two or reports",
  "For every integer type R and all t,u of R: checked::left_shift<R>(t,u) has no undefined behaviour; whenever it holds a value the value is t*2^u; a negative count reports negative_shift; a non-zero shift of a negative value reports negative_shift or shift_too_large; for t>0 and u>0 it succeeds exactly when t*2^u is representable in R.",
  "all data models, all integer types R, all pairs of values","The legal-shift frontier depends jointly on both operands and the type; UB is invisible.",
  [I+"checked_integer.hpp: left_shift_integer_detail, checked_operation::left_shift",I+"utility.hpp: significant_bits"])
p("C07","checked::right_shift divides by a power of two or reports, without undefined behaviour",
  "For every integer type R and all t,u of R: checked::right_shift<R>(t,u) has no undefined behaviour; whenever it holds a value the value is floor(t/2^u); negative counts report negative_shift, negative values negative_value_shift, and counts that are too large shift_too_large.",
  "all data models, all integer types R, all pairs of values","Undefined behaviour of an over-wide shift happens to give plausible values on test hardware.",
  [I+"checked_integer.hpp: right_shift_integer_detail, checked_operation::right_shift"])
p("C08","checked bitwise operations never fail and are exact",
  "For every integer type R and all t,u of R: checked::bitwise_or/and/xor/not return a value (never an error, never UB) equal to the two's-complement bitwise result.",
  "all data models, all integer types R, all (pairs of) values","The guards compare bit counts of both operands; absence of spurious failures is a universal claim.",
  [I+"checked_integer.hpp: bitwise_or, bitwise_xor, bitwise_and, bitwise_not",I+"utility.hpp: significant_bits, bits_type"])
p("C09","checked::cast succeeds exactly on representable values",
  "For all integer types R and T and every T value t: checked::cast<R>(t) holds t exactly when t is representable in R; otherwise it holds an error, which is positive_overflow_error exactly when t is above R's maximum.",
  "all data models, all ordered pairs of integer types, all values","121 type pairs per data model times 2^64 values.",
  [I+"checked_integer.hpp: cast_impl_detail",I+"checked_default.hpp: checked::cast"])
p("C10","checked::minus is exact or reports the right overflow",
  "For every integer type R and every t of R: checked::minus<R>(t) has no UB and holds -t exactly when representable; otherwise it reports the overflow on the side where -t lies.",
  "all data models, all integer types R, all values","The corner value differs per type.",
  [I+"checked_integer.hpp: minus_impl_detail"])
p("C11","safe_compare decides the mathematical order for any two integer types",
  "For every pair of integer types T,U (any signedness, any width) and all values: safe_compare::less_than, greater_than, less_than_equal, greater_than_equal, equal, not_equal return the result of the mathematical comparison of the two integers.",
  "all data models, all ordered pairs of integer types, all pairs of values","Mixed-sign conversions go wrong only on particular type/value pairs.",
  [I+"safe_compare.hpp: less_than, equal, greater_than, ..."])
p("C12","Stored type of a range is the narrowest type that holds it",
  "For all Min<=Max of the (un)signed maximal type: the type stored by safe_signed_range<Min,Max> (safe_unsigned_range<Min,Max>) represents both bounds, and no strictly narrower built-in type of that signedness does.",
  "all data models, all pairs of 64-bit bounds","2^128 bound pairs; each test instantiates one.",
  [I+"utility.hpp: ilog2, significant_bits, signed_stored_type, unsigned_stored_type",I+"safe_integer_range.hpp"])
p("C13","Arithmetic on checked results never invents a value",
  "For every integer type and all checked results a,b: if a+b, a-b, a*b or a/b holds a value v then v is the exact mathematical result for all integers the operands can stand for (a value stands for itself, a positive/negative overflow for any integer above/below the type's range, any other error for any integer at all), except that x/overflow may stand for 0.",
  "all data models, all integer types, all pairs of checked results (all values and all error codes)","11 error codes squared times all values, through lookup tables.",
  [I+"checked_result_operations.hpp: operator+, operator-, operator*, operator/"])
p("C14","Comparisons of checked results are sound three-valued answers",
  "For every integer type and all checked results a,b: when a<b, a>b, a<=b, a>=b, a==b, a!=b return true or false, that answer is the mathematical answer for every pair of integers the operands can stand for; two values are never indeterminate; and < is irreflexive, asymmetric and transitive on its true answers.",
  "all integer types, all pairs and triples of checked results","Quantifies over all values behind an overflow marker.",
  [I+"checked_result_operations.hpp: operator<, operator==, operator>=, ..."])
p("C15","Interval sum, difference and product contain every pointwise result",
  "For every integer type R and intervals of checked R results with l<=u: if x lies in i and y lies in j then x+y lies in i+j, x-y lies in i-j and x*y lies in i*j (an overflow bound means unbounded on that side), provided the bounds are values or overflows.",
  "all integer types, all intervals, all points of the intervals","Containment quantifies over all interior points of all intervals.",
  [I+"interval.hpp: operator+, operator-, operator*",I+"utility.hpp: minmax"])
p("C16","Interval quotient contains every pointwise quotient",
  "For every integer type R and all intervals i, j of R values with j not containing 0: if x in i and y in j then trunc(x/y) lies in i/j.",
  "all integer types, all intervals, all points","Interior points cannot be enumerated.",
  [I+"interval.hpp: operator/"])
p("C17","Interval remainder contains every pointwise remainder",
  "For every integer type R and all intervals i, j of R values with j not containing 0: if x in i and y in j then the remainder x%y lies in i%j.",
  "all integer types, all intervals, all points","Interior points cannot be enumerated; corner evaluation is not monotone for %.",
  [I+"interval.hpp: operator%"])
p("C18","Interval shifts contain every pointwise shift",
  "For every integer type R and all intervals i of R values and j of legal shift counts: if x in i and y in j then x*2^y lies in i<<j and floor(x/2^y) (for x>=0) lies in i>>j.",
  "all integer types, all intervals, all points","Interior points cannot be enumerated.",
  [I+"interval.hpp: operator<<, operator>>",I+"checked_result_operations.hpp: operator<<, operator>>"])
p("C19","Interval relations mean what they say about members",
  "For all intervals of R values: i.includes(t)/i.excludes(t) decide membership; i.includes(j) is true exactly when every member of j is a member of i; i.excludes(j) is true exactly when they are disjoint; i<j (i>j) is true exactly when every member of i is below (above) every member of j, false exactly when it is the other way round; | is a hull; & of overlapping intervals is exactly the common members.",
  "all integer types, all non-empty intervals","Statements over all members of all interval pairs.",
  [I+"interval.hpp: includes, excludes, operator<, operator>, operator|, operator&"])
p("C20","intersect(i,j) decides whether two intervals share a point",
  "For all non-empty intervals i,j of integers: intersect(i,j) is true exactly when some integer belongs to both.",
  "all pairs of intervals","Needs pairs of disjoint intervals in both orders.",
  [I+"interval.hpp: intersect"])
p("C21","Safe addition is exact and inside its declared range, or calls the policy",
  "For every pair of operand types (safe, ranged, literal or built-in) for which a+b compiles under a throwing policy, any promotion policy, and all operand values in their declared ranges: a+b has no undefined behaviour and either yields a result whose value is the mathematical sum and lies within numeric_limits of the result type, or throws an arithmetic error.",
  "all data models, operand types, bounds, promotion policies, operand values","Every instantiation has its own compile-time range computation and elides checks on its own.",
  [I+"safe_base_operations.hpp: addition_result, casting_helper",I+"native.hpp",I+"automatic.hpp",I+"cpp.hpp"])
p("C22","Safe subtraction is exact and inside its declared range, or calls the policy","As C21 for a-b.",
  "all data models, operand types, bounds, promotion policies, operand values","As C21.",
  [I+"safe_base_operations.hpp: subtraction_result"])
p("C23","Safe multiplication is exact and inside its declared range, or calls the policy","As C21 for a*b.",
  "all data models, operand types, bounds, promotion policies, operand values","As C21, plus sign-dependent corner products.",
  [I+"safe_base_operations.hpp: multiplication_result"])
p("C24","Safe division is exact and inside its declared range, or calls the policy","As C21 for a/b with truncated division; in particular division by zero never executes.",
  "all data models, operand types, bounds, promotion policies, operand values","As C21, plus denominators ranges touching zero.",
  [I+"safe_base_operations.hpp: division_result",I+"automatic.hpp: division_result"])
p("C25","Safe remainder is exact and inside its declared range, or calls the policy","As C21 for a%b with the C++ remainder.",
  "all data models, operand types, bounds, promotion policies, operand values","As C21; remainder is not monotone.",
  [I+"safe_base_operations.hpp: modulus_result",I+"automatic.hpp: modulus_result"])
p("C26","Safe left shift is exact and inside its declared range, or calls the policy","As C21 for a<<b meaning a*2^b; a negative or over-wide shift never executes.",
  "all data models, operand types, bounds, promotion policies, operand values","Undefined shifts give plausible values on test hardware.",
  [I+"safe_base_operations.hpp: left_shift_result"])
p("C27","Safe right shift is exact and inside its declared range, or calls the policy","As C21 for a>>b meaning floor(a/2^b) for a>=0; a negative or over-wide shift never executes.",
  "all data models, operand types, bounds, promotion policies, operand values","As C26.",
  [I+"safe_base_operations.hpp: right_shift_result"])
p("C28","Safe bitwise operations yield the bitwise result inside the declared range","For all operand types and values for which a|b, a&b, a^b, ~a compile: the value is the C++ bitwise result and lies within numeric_limits of the result type.",
  "all data models, operand types, bounds, operand values","Range of the result is fixed at compile time from the maxima only.",
  [I+"safe_base_operations.hpp: bitwise_or_result, bitwise_and_result, bitwise_xor_result",I+"utility.hpp: round_out",I+"safe_base.hpp: operator~"])
p("C29","Safe comparisons decide the mathematical order or call the policy","For every pair of operand types, promotion policy and in-range operand values: a<b, a>b, a<=b, a>=b, a==b, a!=b either return the mathematical answer or throw; an answer decided at compile time from the ranges is right for all values in the ranges.",
  "all data models, operand types, bounds, promotion policies, operand values","Static shortcuts skip the run-time comparison.",
  [I+"safe_base_operations.hpp: less_than_result, equal_result"])
p("C30","Construction and assignment admit exactly the values of the declared range","Constructing or assigning a safe type from any built-in, safe or literal value either stores exactly that value, which then lies in [Min,Max] of the target, or throws; it throws exactly when the value is outside [Min,Max]; there is no silent truncation, also when the check is elided at compile time.",
  "all data models, source and target types and ranges, all source values","Type pairs x ranges x values.",
  [I+"safe_base_operations.hpp: validate_detail, validated_cast, safe_base constructors",I+"safe_base.hpp: operator="])
p("C31","Conversion to a built-in type is exact or throws","Converting a safe value to any built-in integer type R yields the same integer if R can represent it and throws otherwise, whatever the value of the safe object is.",
  "all data models, source types, target types, values","Type pairs x values.",
  [I+"safe_base_operations.hpp: operator R"])
p("C32","Unary minus, increment and decrement are exact or throw","-a, ++a, --a, a++, a-- yield/store the exact mathematical result within the declared range, or throw and leave a unchanged; post-forms return the old value.",
  "all data models, safe types, values","As C21, through composed operators with a built-in 0/1 operand.",
  [I+"safe_base.hpp: operator-, operator++, operator--"])
p("C33","A safe variable never leaves its range over any history","Starting from any in-range value, after any finite sequence of assignments, compound assignments (+= -= *=), increments and decrements with arbitrary in-range operands, each of which may throw and be caught, the variable holds a value in [Min,Max], and equals what exact integer arithmetic gives when the throwing steps are skipped.",
  "all safe types, all finite operation sequences, all operand values","Unbounded histories.",
  [I+"safe_base_operations.hpp: operator+= operator-= operator*=",I+"safe_base.hpp"])
p("C34","Failed operations leave the target unchanged (strong guarantee)","If any assignment, compound assignment, increment or decrement of a safe variable throws, the variable still holds its previous value.",
  "all safe types, operators, operand values","Each throw point in each instantiation.",
  [I+"safe_base_operations.hpp: operator+= ... operator^=",I+"safe_base.hpp: operator=, operator++"])
p("C35","Arbitrary expressions are exact or throw","For every expression tree built from safe leaves, literals and built-in operands with + - * (and / under native promotion) that compiles under a throwing policy: evaluation has no undefined behaviour and yields the exact integer value of the whole expression inside the declared range of its static type, or throws.",
  "all finite expression trees, all leaf types and values","Expression depth is unbounded.",
  [I+"safe_base_operations.hpp: addition_result, subtraction_result, multiplication_result, division_result"])
p("C36","Trap policies: what compiles cannot fail","If an arithmetic, comparison or conversion operation compiles under a policy whose arithmetic handler traps, then no operand values in the declared ranges make it call any arithmetic-error handler at run time.",
  "all data models, operand types, promotion policies, operand values","Absence of a run-time failure for all values.",
  [I+"exception_policies.hpp: trap_exception, loose_trap_policy, strict_trap_policy",I+"safe_base_operations.hpp: dispatch"])
p("C37","Elided checks are never needed","Whenever the compile-time analysis of +, -, * (any policy) or / (native) decides that no check is needed, no operand values in the declared ranges can make the unchecked computation overflow, divide by zero or leave the declared result range.",
  "all data models, operand types, policies, values","The run-time check is absent, so no test input can show it was needed except the failing one.",
  [I+"safe_base_operations.hpp: exception_possible"])
p("C38","automatic promotion never throws when a 64-bit type can hold all results","Under automatic promotion, if the mathematical range of a+b, a-b or a*b over the operands' declared ranges fits the maximal integer type of the selected signedness, the operation never throws.",
  "all operand ranges and values","Over all 64-bit range bounds.",
  [I+"automatic.hpp: addition_result, subtraction_result, multiplication_result"])
p("C39","native promotion yields exactly what built-in arithmetic yields","Under native promotion with a throwing policy: the result's underlying type is the type of the corresponding built-in expression, and whenever a op b (op in + - * / ) returns, the built-in expression on the same operand values has no undefined behaviour and the same value.",
  "all operand types and values","As C21.",
  [I+"native.hpp"])
p("C40","cpp<...> with the host's own widths promotes like the host compiler","For the host data model, cpp<CHAR_BIT*sizeof(char..long long)> selects for every pair of operand types the same result type as native.",
  "all data models, all pairs of integer types","Many type pairs and models.",
  [I+"cpp.hpp: integral_promotion, usual_arithmetic_conversions"])
p("C41","At most one error report per failing operation, of the class that matches the error","Under a throwing policy each arithmetic, comparison, conversion or assignment operation calls at most one handler, exactly when it throws, and the handler called is the one whose action class make_safe_numerics_action assigns to the reported error.",
  "all operations, operand types, values","Handler call traces over all executions.",
  [I+"safe_base_operations.hpp: dispatch, dispatch_and_return",I+"exception_policies.hpp: make_safe_numerics_action"])
p("C42","Error-to-action mapping and error_condition equivalence agree","For every error code e and action a: error_code(e) == error_condition(a) exactly when make_safe_numerics_action(e) == a.",
  "all error codes and actions","Finite but two independently maintained tables.",
  [I+"exception.hpp: equivalent",I+"exception_policies.hpp: make_safe_numerics_action"])
p("C43","Ignoring policies behave like the built-in types","Under a policy that ignores arithmetic errors with native promotion, any operation whose built-in counterpart is defined returns what the built-in operation returns.",
  "all operand types and values","Values after an ignored error.",
  [I+"exception_policies.hpp: ignore_exception",I+"safe_base_operations.hpp: casting_helper, return_value"])
p("C44","Stream input stores the value read or leaves the variable valid","After reading any stream content into a safe variable (including content that is malformed, too large, negative or outside [Min,Max]), whether or not an exception is thrown, the variable holds a value in [Min,Max]; on success it is the value read.",
  "all stream contents, all safe types","Unbounded inputs.",
  [I+"safe_base_operations.hpp: safe_base::input"])
p("C45","Results are portable across data models","For operand types with the same declared ranges, automatic promotion yields the same result range, the same value and the same error on every data model (LP64, LLP64, ILP32, 16-bit int).",
  "all pairs of data models, all ranges, all values","Tests run on one platform.",
  [I+"automatic.hpp",I+"utility.hpp: signed_stored_type, unsigned_stored_type"])
p("C46","Literals are exact","safe_signed_literal<N> and safe_unsigned_literal<N> convert to exactly N in every type that can represent N; -literal and ~literal, when they compile, hold exactly -N and the complement of N.",
  "all N, all target types","All 2^64 literals.",
  [I+"safe_integer_literal.hpp"])
p("C47","Safe addition and multiplication commute","a+b and b+a (a*b and b*a) have the same result type range, and for all in-range values return the same value or both throw.",
  "all operand types, policies, values","All pairs.",
  [I+"safe_base_operations.hpp: addition_result, multiplication_result"])
p("C48","Uninitialised safe values are reported","Default construction of a safe object either reports uninitialized_value through the policy or leaves a value in [Min,Max].",
  "all safe types and policies","Value left in memory is indeterminate.",
  [I+"safe_base_operations.hpp: safe_base::safe_base()",I+"exception_policies.hpp"])
p("C49","Spurious failures do not occur under native promotion","Under native promotion, a+b, a-b, a*b throws only if an operand is not representable in the C++ result type or the mathematical result is not.",
  "all operand types and values","Universal absence of spurious throws.",
  [I+"safe_base_operations.hpp",I+"native.hpp"])
p("C50","Implicit chain of conversions preserves value","Converting a value through any finite chain of safe types and built-in types yields the original integer or throws.",
  "all finite conversion chains","Unbounded chains.",
  [I+"safe_base_operations.hpp: validated_cast, operator R"])
p("C51","Exception policies do not change values","An operation, comparison or construction that calls no handler under one exception policy returns the same value, in the same range, under every other exception policy under which it compiles.",
  "all operators, operand types, pairs of exception policies, values","Pairs of policies for all inputs.",
  [I+"safe_base_operations.hpp: dispatch_and_return, return_value"])
p("C52","No safe variable is ever indeterminate if the policy reports uninitialised values","If the policies of all default-constructed variables throw (or refuse to compile) on uninitialized values, then in every program over safe variables, with any control flow and any exceptions caught, no variable ever has an indeterminate value.",
  "all programs, all executions, all operators and policies","All histories, including those interrupted by exceptions.",
  [I+"safe_base_operations.hpp: safe_base::safe_base()",I+"exception_policies.hpp"])
p("C53","A native safe program that completes is the built-in program","If an expression or program over safe types with native promotion (operators + - * / and unary minus, conversions, compound assignments, ++ and --, loops, comparisons in which the common type represents both operand types) completes without an exception, then the same program with every safe type replaced by the built-in type it stores has no undefined behaviour and ends with the same values.",
  "all expressions and programs, all initial values, all loop counts, all data models","Unbounded programs and histories.",
  [I+"native.hpp",I+"safe_base_operations.hpp"])
p("C54","A native safe program throws only if the built-in program would lose something","If in the built-in counterpart of a program over native safe types every operand conversion, result, conversion and assigned value is represented exactly (and fits the declared range of the variable assigned), the safe program completes without an exception, with the same values.",
  "all expressions and programs, all initial values, all loop counts, all data models","Universal absence of spurious exceptions.",
  [I+"native.hpp",I+"safe_base_operations.hpp"])
p("C55","Writing a safe value and reading it back gives the same value","operator<< writes the decimal representation of the value, also for safe types based on character types. Reading with operator>> into a variable of the same safe type (not based on plain char), with any white space before and any non-digit after, gives the same value without an exception. So for a sequence of any number of values of any such types written one after another.",
  "all safe types not based on char, all values, all sequences, all data models","All values and unbounded sequences.",
  [I+"safe_base_operations.hpp: safe_base::output, safe_base::input"])
p("C56","Full-range native safe types: the outcome of every operation is determined","For safe<T> with native promotion and a throwing policy, with the other operand a safe<U> of the same policies or a built-in U: every operator compiles, its result is stored in the type of the built-in expression, and its outcome is: the exact value if both operands and the value are representable in that type (for shifts: if the count is legal too), an exception of the right class otherwise. For bitwise operators: the built-in result. For comparisons: the mathematical answer if both operands are representable in the common type, an exception otherwise.",
  "all built-in types T and U, all values, all operators, all throwing policies, all data models","All pairs of values of all pairs of types; the outcome is characterised in both directions.",
  [I+"safe_base_operations.hpp: addition_result, ..., less_than_result, bitwise_or_result", I+"native.hpp"])
p("C57","Policies cannot be mixed by accident","If the operands of an operator or of a comparison have different exception policies or different promotion policies, the expression does not compile. If neither operand has a policy (two literals) it does not compile. If it compiles, the result type has the policies of the operands. So all operands of an expression, however deep, that are not inside an explicit cast share their policies.",
  "all operand types, all operators and comparisons, all data models","Ranges over all combinations of types; a non-compiling program is not a unit test.",
  [I+"safe_base_operations.hpp: common_exception_policy, common_promotion_policy"])
p("C58","The predefined exception policies do what their names say","Under the predefined policies each class of error has the documented effect: loose and strict exception policies throw on arithmetic errors, trap policies do not compile, the loose ones ignore implementation-defined shifts and uninitialised variables, the strict ones throw (do not compile) on any kind of error.",
  "all errors, all types","All error codes and all types.",
  [I+"exception_policies.hpp: loose_exception_policy, strict_exception_policy, loose_trap_policy, strict_trap_policy", I+"safe_base_operations.hpp: dispatch, safe_base default constructor"])
p("C59","Compile-time decisions about conversions are exact","Under a trap policy, constructing or assigning a safe value from another operand compiles if and only if every value of the operand's type is in the target's range; converting to a built-in type compiles if and only if every value of the safe type fits. Under a throwing policy a construction is rejected by the compiler if and only if no value of the operand's type is in the target's range.",
  "all types, ranges and operands, all data models","All pairs of ranges; non-compiling programs cannot be unit tested.",
  [I+"safe_base_operations.hpp: safe_base constructors, validate_detail, conversion operator"])
p("C60","Trap policies reject only expressions that can fail","For + - * (and / when the result type is large enough): the expression compiles under a trap policy if and only if the same expression under a throwing policy returns normally for all values in the operands' declared ranges. A run-time check is generated only if some operands in the declared ranges fail it. Comparisons likewise.",
  "all operand types and ranges, all data models","All ranges; completeness of a static analysis.",
  [I+"safe_base_operations.hpp: exception_possible, addition_result, ...", I+"interval.hpp"])
p("C61","Declared ranges of results are the tightest possible","The bounds of the result type of + - * (of / if the range of the divisor does not end in 0, and of << and >> if no operand is negative) are results of some operands in the declared ranges, or are the bounds of the underlying type because some operands or results are not values of that type.",
  "all operand types and ranges, all data models","All ranges.",
  [I+"safe_base_operations.hpp: addition_result::r_type_interval", I+"interval.hpp: operator+, operator-, operator*"])
p("C62","Under native promotion declared ranges affect only which checks are made","For + - * / under native promotion and a throwing policy, the outcome (value or exception) and the underlying type of the result depend only on the values and underlying types of the operands, not on declared ranges, on whether operands are built-in, safe or literals: it is the exact value if operands and value are representable in the type of the built-in expression, an exception otherwise.",
  "all operand types, ranges and values, all data models","All ranges and values; two different code paths (checked and elided) must agree.",
  [I+"safe_base_operations.hpp: addition_result::return_value", I+"native.hpp"])
p("C63","Comparisons of compatible types never fail","A comparison between operands whose ranges are representable in the comparison type (for native promotion the common type, for automatic the widest type of that signedness), in particular between two objects of the same safe type, compiles under every exception policy including trap, never calls a handler and gives the mathematical answer.",
  "all operand types, ranges and values, all six comparisons, all exception policies, all data models","All types, values and policies.",
  [I+"safe_base_operations.hpp: less_than_result, equal_result"])
p("C64","Trap policies: a program that compiles cannot fail","A program all of whose safe types use a policy that rejects arithmetic errors at compile time (the trap policies) and that compiles never throws, never divides by zero and does nothing undefined: with + - * (and / under native promotion), conversions, comparisons, loops and assignments it terminates exactly when the same program over the mathematical integers does, with the same values, all inside the declared ranges.",
  "all programs of any length and nesting, all numbers of loop iterations, all variable types and ranges, all starting values, all data models","All programs and all inputs; compile-time rejection cannot be observed by a running test.",
  [I+"exception_policies.hpp: trap_exception, strict_trap_policy, loose_trap_policy",I+"safe_base_operations.hpp: exception_possible, validate_detail"])
p("C65","Trap policies: the checks cost nothing and change nothing","A program that compiles under trap policies also compiles when every exception policy in it is replaced by any other one, and then executes identically, step by step: no handler is ever called and no check is ever executed.",
  "all programs using any operator, all replacement policies, all promotion policies, all stores, all data models","All programs, policies and inputs.",
  [I+"exception_policies.hpp",I+"safe_base_operations.hpp: operator+ - * / % << >> | & ^, comparison operators, compound assignment"])
p("C66","Types, policies and platforms cannot change results","Two versions of a program that differ only in the types of variables, constants and casts, in exception and promotion policies, in the order of evaluation of operands or in the platform (data model), and that both complete normally from the same starting values, end with the same values in all variables and in all elements of arrays, and from the same input text they write the same output text. Two expressions with the same exact value, however written, that both return give the same value.",
  "all pairs of programs without try, all typings, all data models, all starting values","All programs, typings and platforms.",
  [I+"safe_base_operations.hpp",I+"native.hpp",I+"automatic.hpp"])
p("C67","Shifts, negation and bitwise operators of checked results are exact or report","For every integer type and all checked results a, b: a << b and a >> b never execute undefined behaviour; of two values they report the value x * 2^y (x / 2^-y rounded towards zero for a negative count) or an overflow in its direction; a value obtained from any operands is the exact result for all integers the operands stand for. The same for unary minus. The bitwise operators give the bitwise result of two values and range_error if an operand is an error.",
  "all data models, all integer types, all pairs of checked results","11 error codes squared times all values and counts, through lookup tables and mutually recursive operators.",
  [I+"checked_result_operations.hpp: operator<<, operator>>, operator-, operator|, operator&, operator^"])
p("C68","Overflows of checked results are reported on the right side","For all checked results a, b, what a+b, a-b, a*b or a/b report as a positive (negative) overflow is not below (above) the range of the type for any integers the operands stand for; of two values the result is the exact value if it is representable and otherwise the overflow in the direction of the exact value.",
  "all data models, all integer types, all pairs of checked results","11 error codes squared times all values, through lookup tables.",
  [I+"checked_result_operations.hpp: operator+, operator-, operator*, operator/"])
p("C69","The remainder of checked results never invents a value","For all checked results a, b: if a % b holds a value, it is the C++ remainder of all integers the operands stand for.",
  "all data models, all integer types, all pairs of checked results","11 error codes squared times all values, through lookup tables.",
  [I+"checked_result_operations.hpp: operator%"])
p("C70","Native shifts and remainders are the built-in ones","Under native promotion every operator's result is stored in the type of the built-in expression. If the built-in << or >> is defined for the operands, the safe one returns the same value, or calls exactly one handler, the one for implementation-defined behaviour, and then throws or returns that same value. If the built-in % is defined, the safe one returns the same value, or throws because an operand would be changed by the conversion to the common type.",
  "all operand types, ranges and values, all exception policies, all data models","All pairs of values of all types.",
  [I+"native.hpp: left_shift_result, right_shift_result, modulus_result", I+"safe_base_operations.hpp: operator<<, operator>>, operator%"])
p("C71","Automatic promotion picks the narrowest type that can hold every result","Under automatic promotion the underlying type of a + b, a - b and a * b holds every result that the widest integer type of the same signedness holds, and no narrower type of that signedness holds them all. It is signed unless both operands are unsigned and the operator is not subtraction.",
  "all operand types and ranges, all data models","All pairs of ranges; optimality of a compile-time computation.",
  [I+"automatic.hpp: addition_result, subtraction_result, multiplication_result", I+"utility.hpp: signed_stored_type, unsigned_stored_type"])
p("C72","Which expressions compile","If the operands have the same policies, which do not trap, then + - * / % <<, and all comparisons compile whatever the types and declared ranges of the operands, under native and automatic promotion (literals must fit the type of the expression). A right shift compiles unless the promoted left operand is unsigned and a bound of the declared range of the count is exactly its width. A bitwise operator compiles exactly if the common type is unsigned or the largest values of both operands (for &: of one of them) are not negative.",
  "all operand types, ranges and literals, all exception policies, all data models","All ranges; non-compiling programs cannot be unit tested.",
  [I+"safe_base_operations.hpp: addition_result::r_type_interval, ..., right_shift_result, bitwise_or_result", I+"interval.hpp", I+"automatic.hpp"])
p("C73","Composed expressions and programs with all operators are exact or throw","An expression of any depth, or a program of any length, over throwing policies that uses any of the ten binary operators, unary operators, conversions, loops and assignments gives the exact mathematical value at every step, inside the declared range of the type it has, or throws; nothing is silently wrong and nothing undefined is executed.",
  "all expressions and programs, all operand types, ranges and values, all data models","All expression trees, programs and inputs; the range one operator declares decides whether the next one is checked.",
  [I+"safe_base_operations.hpp: operator+ - * / % << >> | & ^, compound assignment", I+"interval.hpp: operator%, operator>>"])
p("C74","Native safe programs with all operators and the built-in programs","With all ten binary operators: if an expression or program over safe types with native promotion and throwing policies completes without an exception, the same program over the underlying built-in types has defined behaviour and gives the same values; and if the built-in program represents every operand, result and assigned value exactly, the safe program completes without an exception with the same values.",
  "all expressions and programs, all native operand types, ranges and values, all data models","All expression trees, programs and inputs; undefined behaviour of the built-in program cannot be observed by a test.",
  [I+"safe_base_operations.hpp: operator+ - * / % << >> | & ^, compound assignment", I+"native.hpp"])
p("C75","numeric_limits of safe types tell the truth","For a safe type S, numeric_limits<S>::min(), max() and lowest() are exactly the least, greatest and least value an object of type S can be given: every value between them is stored unchanged and every other one is rejected. The limits of the type of a sum, difference or product bound its value. Every number of numeric_limits<S>::digits binary or digits10 decimal digits is a value of S, and is_modulo is true only if overflow wraps.",
  "all safe types, ranges and values, all data models","All ranges and values.",
  [I+"safe_base.hpp: numeric_limits<safe_base>", I+"safe_integer_literal.hpp: numeric_limits<safe_literal_impl>"])
p("C76","The displayed range and value are the real ones","The text printed by make_range_value(x) is the declared minimum and maximum of the type of x and the value of x, as decimal numbers, for every underlying type; two values that print alike have the same range and value. make_result_display(x) shows them in hexadecimal followed by the value in decimal, and leaves the stream decimal.",
  "all safe types, ranges and values, all data models","All ranges and values; injectivity over all pairs.",
  [I+"range_value.hpp", I+"interval.hpp: operator<<", I+"safe_base_operations.hpp: safe_base::output"])
p("C77","Checked casts from floating point report values out of range","checked::cast<R>(t) of a floating point value t to an integer type R gives the integer part of t if it is a value of R, and reports an error for every other t, infinities and NaN included; no undefined behaviour is executed.",
  "all floating point values, all integer types, all data models","All values of every floating point format.",
  [I+"checked_integer.hpp: heterogeneous_checked_operation (floating point to integer)", I+"checked_default.hpp: checked::cast"])
p("C78","Automatic promotion makes shifts exact","Under automatic promotion a << b and a >> b of operands whose declared ranges have no negative values return the exact result, without an exception, if the widest integer type of the signedness of a holds every result; the result is in the declared range of its type, which is signed exactly if the type of a is.",
  "all operand types, ranges and values, all data models","All pairs of ranges and values.",
  [I+"automatic.hpp: left_shift_result, right_shift_result", I+"safe_base_operations.hpp: operator<<, operator>>"])
p("C79","Trap policies: a program with all operators that compiles does the right thing","A program of any length over trap policies that uses any of the ten binary operators and compiles never calls an error handler and never throws. Every value it computes is the exact mathematical value, inside the declared range of its type, nothing undefined is executed, and it ends exactly when the program over the mathematical integers ends.",
  "all expressions and programs, all operand types, ranges and values, all data models","All expression trees, programs and inputs; the claim is that no input at all makes a compiled program fail.",
  [I+"exception_policies.hpp: strict_trap_policy, loose_trap_policy, trap_exception", I+"safe_base_operations.hpp: operator+ - * / % << >> | & ^, exception_possible", I+"interval.hpp: operator%"])
p("C80","The stepper motor program moves the motor where it was told","For every sequence of calls of test() of the stepper motor example, with any target positions from 0 to 50000 and any contents of the timer: every move ends at its target after exactly as many interrupts as there are steps, without an exception; the delays follow the ramp of the published algorithm and stay between 25 and 5000 microseconds, the asserts hold, and the compare registers and windings always contain the next timer value and the phase of the position reached.",
  "all sequences of moves, all positions, all timer contents, every interrupt of every move","All histories of moves, of up to 50000 interrupts each; the example makes five moves.",
  ["example/motor3.c: motor_run, isr_motor_step, update", "example/example93.cpp: position_t, c_t, test, main"])
p("C81","Safe values are consistently ordered","Comparisons of safe and built-in values of any mixture of types that return are consistent: < is transitive across types, values that compare equal compare alike with every third value, exactly one of a < b, a == b and a > b holds and <=, >=, != are the negations; a sequence of objects of one safe type is in order according to its operator < exactly when the numbers are in order, so that standard algorithms which need a strict weak ordering work.",
  "all triples of operand types, ranges and values, all sequences, all data models","All triples of types and values, sequences of any length.",
  [I+"safe_base_operations.hpp: operator< > <= >= == !=", I+"safe_compare.hpp"])
p("C82","Algebraic laws hold","Rewriting an expression according to a law of integer arithmetic (associativity, distributivity, ...), changing the types of its variables, the policies or the platform can change whether it throws, but never the value it returns. Quotient and remainder of the same operands fit together: q * b + r = a.",
  "all pairs of expressions with the same mathematical value, all types, ranges and values, all data models","All pairs of expressions, of any depth.",
  [I+"safe_base_operations.hpp: operator+ - * / %"])
p("C83","Order of evaluation does not matter","C++ leaves open which operand of an operator is evaluated first, and lets the calls in both be interleaved. Whatever order the compiler chooses, a program over safe variables leaves the same values in its variables and completes or raises an exception in the same cases (which of two errors is reported may differ), unless one of the runs executes undefined behaviour; with + - * and native / none does.",
  "all programs (assignments, compound assignments, ++/--, conditionals, loops, try/catch), all choices of an order at every operator and comparison, all interleavings of the operator calls, all types, policies, values and data models","All programs and all orders, of any size; a compiler chooses one order.",
  [I+"safe_base_operations.hpp: binary operators and comparisons", I+"exception_policies.hpp: exception_policy"])
p("C84","Declaring narrower ranges never costs more","Where the promotion policy goes by underlying types (native, cpp<...>): narrowing the declared ranges of the operands never turns an operation that needs no run-time check into one that is checked, so what compiles under a trap policy still does, and the declared range of the result gets no wider.",
  "all operators, all pairs of operand types and all narrower ranges for them, all policies and data models","All ranges inside all ranges; a compiler sees the ranges of one program.",
  [I+"safe_base_operations.hpp: addition_result, subtraction_result, multiplication_result, division_result, modulus_result, left_shift_result, right_shift_result (r_type_interval, exception_possible)", I+"interval.hpp"])
p("C85","Safe at every moment, under every schedule","At every moment of the execution of a program, also of one that never ends, and with any number of threads that share safe variables and take turns in any order, also in the middle of a statement or an expression, every variable is within its declared range, the values are ones that the same threads reach in exact integer arithmetic where statements may also raise exceptions, and nothing undefined has happened. No thread is ever stuck.",
  "all numbers of threads, all programs with loops and handlers, all schedules of their statements or of their single variable accesses and operator calls, all reachable states (finite or infinite executions), all types, values and data models","All schedules and all moments; a test run sees one schedule and only its end.",
  [I+"safe_base_operations.hpp: assignment, compound assignment, ++, --", I+"safe_base.hpp: m_t", I+"exception_policies.hpp: exception_policy"])
p("C86","No hidden shared state","Threads that use different variables (or only read common ones) do not influence each other through the library: at every moment each is in a state it reaches running alone, those that have ended have the result and the values they have when run alone, variables nobody writes keep their values, and all schedules give the same end state.",
  "all numbers of threads, all programs, all operators, types and policies, all schedules, all data models","All schedules of all programs; state hidden in the library would show only under some of them.",
  [I+"safe_base.hpp: m_t", I+"safe_base_operations.hpp", I+"exception.hpp", I+"exception_policies.hpp"])
p("C87","Programs that read their input","Whatever characters the input consists of, a program that reads safe variables from a stream, computes with them and writes them ends as it does in exact integer arithmetic, where reading takes an integer in the declared range of the variable from the input or raises because there is none and writing writes decimal numbers, or with an exception; nothing undefined happens. Reading with a policy that traps does not compile. With native promotion nothing is raised as long as the input offers the numbers that are read and the same program over the built-in types would lose nothing.",
  "all programs (assignments, input, output, conditionals, loops, try/catch), all inputs of any length, all types, values and data models","All texts of any length and all programs.",
  [I+"safe_base_operations.hpp: safe_base::input, safe_base::output", I+"safe_base.hpp: operator>>, operator<<", "example/example84.cpp"])
p("C88","Subscripts","In a program that uses safe values as subscripts of arrays, accesses are to the element designated in exact integer arithmetic, or an exception is raised; elements stay within the declared range of their type; and if the declared ranges of the subscripts are inside the arrays, no access is ever out of bounds and nothing else undefined happens.",
  "all programs with arrays (element reads and writes, assignments, conditionals, loops, try/catch), array lengths, types, contents, values and data models","All programs, contents and subscripts.",
  [I+"safe_base.hpp: operator R", I+"safe_base_operations.hpp: operator R, validate_detail"])
p("C89","Errors can be told apart","Different errors have different messages, names and error code numbers, and the number is 0 exactly for success; the text of a thrown exception determines the error and its message; the text written for a checked result determines whether it is a value, and which, or an error, and which, and values are written in decimal.",
  "all errors, messages, result types and values","All values of all types and all message texts.",
  [I+"exception.hpp: literal_string, safe_numerics_error_category", I+"exception_policies.hpp: throw_exception", I+"checked_result_operations.hpp: operator<<(ostream)"])
p("C90","The cpp policy emulates another platform","With the promotion policy cpp<...> of a platform's widths, the types of results are those of that platform, and a program over safe types that ends normally on the host computes what the same program with built-in types computes on that platform, where nothing in it is undefined or implementation-defined; and a program whose values all fit there raises nothing on the host.",
  "all widths in C++ order that the host can represent, hosts, expressions, programs, declared ranges and initial values","The target platform is not available to the tests, and there are infinitely many programs and values.",
  [I+"cpp.hpp: cpp, rank, integral_promotion, usual_arithmetic_conversions", I+"safe_base_operations.hpp: operators", "example/example92.cpp", "example/motor_test3.c"])
p("C91","Programs with functions","Whatever the depth of recursion, a program whose functions take and return safe values (each argument is converted to the type of its parameter, each result to the result type and then to the type of the variable that receives it) has the results of exact integer arithmetic, or an exception leaves the functions up to a handler; all variables of all calls stay within their declared ranges and nothing undefined happens. A condition joined by && or || raises nothing in an operand that is not needed. With native promotion no exception is raised as long as the same program over the built-in types would lose nothing.",
  "all programs with any number of functions, parameters, recursion depth, loops and handlers, all types, values and data models","All programs and recursion depths.",
  [I+"safe_base_operations.hpp: constructors, operator R, operators and comparisons", I+"safe_base.hpp: safe_base"])
p("C92","Constant expressions","A constant computed at compile time from safe values (constexpr variables, static_assert) has the exact value of its expression, or the program is rejected; an operation whose exact result its type can represent is accepted.",
  "all operators, operand types and declared ranges, constant values, expressions, comparisons and data models","All types and values; a rejected program cannot be a test case of a suite that must compile.",
  [I+"safe_base.hpp: safe_base (constexpr members)", I+"safe_base_operations.hpp: operators", I+"exception_policies.hpp: throw_exception, ignore_exception", "test/test_add_constexpr.hpp"])
p("C93","Safe integers as conditions","Used as a condition (if, while, !, &&, ||, conversion to bool), a safe integer with value 0 is false and with value 1 is true, and one with any other value raises an exception; so a condition is never decided differently from the same condition on exact integers. A bool stored in a safe integer keeps its value, or an exception is raised if the declared range excludes it.",
  "all safe types, declared ranges, literals, values, policies that throw, conditions and data models","All types, ranges and values, and all conditions.",
  [I+"safe_base_operations.hpp: operator R, validate_detail, constructors", I+"checked_integer.hpp: heterogeneous_checked_operation::cast", I+"safe_integer_literal.hpp: operator R", I+"safe_compare.hpp: less_than"])
p("C94","The second stepper motor program moves the motor where it was told or raises","For every history of calls of test() of the second stepper motor example (safe integers with the promotion rules of an 8-bit processor): told to go to any target of type int32, the motor arrives there after as many interrupts as there are steps and stops, or an exception tells why it does not; no register receives a value that is not the one computed, and nothing undefined happens.",
  "all histories of moves, all positions and targets, every interrupt of every move","All histories of moves, of up to 32767 interrupts each; the example makes five calls and suppresses the sixth.",
  ["example/motor2.c: motor_run, isr_motor_step, initialize, make16", "example/example92.cpp: pic16_promotion, int16, uint8, uint32, test, main"])
p("C95","Programs over safe integers end","A program over safe integers that ends in exact arithmetic ends. A loop in which a safe variable grows (or falls) in every turn ends even if it would not in exact arithmetic, at the latest by an exception when the variable leaves its declared range; a counting loop runs its body for exactly the values between its bounds, or raises at one of them. With built-in types such a loop may run forever.",
  "all programs, types with throwing policies, initial values and data models; all loop bodies","Whether a program ends for all values cannot be observed by running it.",
  [I+"safe_base.hpp: operator++, operator--", I+"safe_base_operations.hpp: operators, comparisons, compound assignment"])
p("C96","Intervals of integers","Intervals whose elements are safe or built-in integers: the sum, difference, product, quotient and shift of two intervals is the smallest interval that contains every result for members of the operands, or an exception is thrown; includes, excludes, the comparisons, union and intersection say exactly what they mean about the members.",
  "all element types, data models, intervals and members","All intervals and all pairs of members; the project's test checks intervals of checked results with eight values only.",
  [I+"interval.hpp: interval, operators, includes, excludes, intersect", I+"utility.hpp: minmax"])
p("C97","Modular powers and bits over safe<unsigned>","The functions with which the library is plugged into Boost.Multiprecision's primality test compute what they mean over safe<unsigned>: powm(a, b, c) returns a^b modulo c for all values of unsigned without any exception from an intermediate result, throws when c is 0, and bit_test(val, index) tells whether the bit is set.",
  "all values of a, b, c, val and index, all data models","2^96 arguments of powm; the project's performance test only counts primes and compares nothing.",
  ["test/test_performance.cpp: multiply, bit_test, integer_modulus, powm", I+"safe_base_operations.hpp: operators %, *, &, >>=, <<=, operator R"])
p("C98","Relations of intervals with infinite ends","For intervals of checked results, whose ends are values or, on the outer side, overflows that stand for infinity: includes and excludes of a value, excludes, |, & and the comparisons < > <= >= of intervals say exactly what they mean about the members; includes of an interval is true exactly if all its members are members, and == exactly if both have the same members.",
  "all integer types, all non-empty intervals with finite or infinite ends, all data models","All pairs of intervals; three-valued answers.",
  [I+"interval.hpp: includes, excludes, operator<, operator>, operator<=, operator>=, operator==, operator|, operator&", I+"checked_result_operations.hpp: operator<, operator=="])
p("C99","Assignments used as operands","Assignments may be operands of other assignments, as with built-in integers: a = b = c, (a = b) += c, ++(a = b), a = b += c set every variable to its value in exact arithmetic and the whole denotes the variable that was assigned to, so a further assignment or increment changes that variable; or an exception is raised and exactly the assignments made before it have happened.",
  "all nestings of =, ten compound assignments, ++ and --, both orders of evaluation, all types, values, throwing policies and data models","Infinitely many nestings; whether a temporary copy or the variable is changed depends on the form of the whole expression.",
  [I+"safe_base_operations.hpp: operator+= and the other compound assignments (return T)", I+"safe_base.hpp: operator=, operator++, operator-- (return safe_base &)"])
p("C100","Who is told about an error","Every error found while an expression is evaluated is reported to the handlers of exception policies that occur in it (without explicit casts: of the one policy of its result), with the class of the error; an error found in a conversion is reported to the policy of the object that takes the value, or, if that is a built-in type, of the value. Evaluation goes on after a handler that returns, and ends with the first one that throws. A program raises only errors that a policy occurring in it throws, so policies that throw no errors of a class guarantee that none is raised.",
  "all expressions, conditions, conversions, stream input and programs (also with input and output, arrays and recursive functions), all types, values, states of the variables, policies (each handler may throw, return or not compile) and data models","All combinations of policies and all programs; which of several policies is called depends on the whole expression.",
  [I+"safe_base_operations.hpp: dispatch, dispatch_and_return, validate_detail, common_exception_policy, casting_helper", I+"exception_policies.hpp: exception_policy"])
p("C101","Hexadecimal and octal streams","With std::hex and std::oct, as with std::dec, >> into a safe integer that is not of a character type stores exactly the number at the beginning of the text if it is in the range of the type, and throws in every other case. The text written by << denotes the value if it is not negative, and what is written by << is read back by >> in the same base (also for signed char and unsigned char) as the same value or an exception is thrown; it is never read as a different value. The exception is thrown for negative values, and only for them.",
  "all texts, all types and ranges, all values, all throwing policies, the three bases and all data models","Texts of any length and all values; negative values are written in two's complement and could be read back as something else.",
  [I+"safe_base_operations.hpp: safe_base::output, safe_base::input", I+"safe_base.hpp: operator<<, operator>>"])
p("C102","Programs that switch between decimal, octal and hexadecimal","A program that reads safe variables from a stream, computes with them and writes them to a stream, and switches the streams between std::dec, std::oct and std::hex, behaves like exact integer arithmetic whatever the input is: it takes the integer that stands in the input in the current base, if it is in the declared range of the variable, and otherwise ends in an exception (variables of narrower ranges not being read inside a try block); what it writes is the value in the current base (a negative value in base 8 or 16 as its two's complement). It has no undefined behaviour, and it raises nothing if the input offers the numbers that are read and the program over the built-in types would lose nothing.",
  "all programs with input, output, manipulators, loops and try blocks; all input texts; all types, data models and both promotion policies","The programs, the inputs and the number of iterations are unbounded.",
  [I+"safe_base_operations.hpp: safe_base::output, safe_base::input", I+"safe_base.hpp: operator<<, operator>>", "example/example92.cpp", "example/example84.cpp"])
with open("/verif/properties.jsonl","w") as f:
    for x in P: f.write(json.dumps(x)+"\n")
print(len(P))
