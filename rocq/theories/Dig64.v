(** Fast multiplication of integers inside the kernel: base-64 digits as constructors, products and sums of
    two digits read off tables.  Used only to run one long computation (PairNonDeg.v); every result is proved
    equal to the one of [Z.mul], so nothing here is trusted.  The tables are generated. *)
From Coq Require Import ZArith List Bool Lia.
Import ListNotations.
Local Open Scope Z_scope.

Inductive dg := D0 | D1 | D2 | D3 | D4 | D5 | D6 | D7 | D8 | D9 | D10 | D11 | D12 | D13 | D14 | D15 | D16 | D17 | D18 | D19 | D20 | D21 | D22 | D23 | D24 | D25 | D26 | D27 | D28 | D29 | D30 | D31 | D32 | D33 | D34 | D35 | D36 | D37 | D38 | D39 | D40 | D41 | D42 | D43 | D44 | D45 | D46 | D47 | D48 | D49 | D50 | D51 | D52 | D53 | D54 | D55 | D56 | D57 | D58 | D59 | D60 | D61 | D62 | D63.
Inductive pr := Pr (hi lo : dg).
Inductive cr := Cn (s : dg) | Cy (s : dg).
Definition dval (a : dg) : Z := match a with D0 => 0 | D1 => 1 | D2 => 2 | D3 => 3 | D4 => 4 | D5 => 5 | D6 => 6 | D7 => 7 | D8 => 8 | D9 => 9 | D10 => 10 | D11 => 11 | D12 => 12 | D13 => 13 | D14 => 14 | D15 => 15 | D16 => 16 | D17 => 17 | D18 => 18 | D19 => 19 | D20 => 20 | D21 => 21 | D22 => 22 | D23 => 23 | D24 => 24 | D25 => 25 | D26 => 26 | D27 => 27 | D28 => 28 | D29 => 29 | D30 => 30 | D31 => 31 | D32 => 32 | D33 => 33 | D34 => 34 | D35 => 35 | D36 => 36 | D37 => 37 | D38 => 38 | D39 => 39 | D40 => 40 | D41 => 41 | D42 => 42 | D43 => 43 | D44 => 44 | D45 => 45 | D46 => 46 | D47 => 47 | D48 => 48 | D49 => 49 | D50 => 50 | D51 => 51 | D52 => 52 | D53 => 53 | D54 => 54 | D55 => 55 | D56 => 56 | D57 => 57 | D58 => 58 | D59 => 59 | D60 => 60 | D61 => 61 | D62 => 62 | D63 => 63 end.
Definition dmul (a b : dg) : pr := match a with
| D0 => match b with D0 => Pr D0 D0 | D1 => Pr D0 D0 | D2 => Pr D0 D0 | D3 => Pr D0 D0 | D4 => Pr D0 D0 | D5 => Pr D0 D0 | D6 => Pr D0 D0 | D7 => Pr D0 D0 | D8 => Pr D0 D0 | D9 => Pr D0 D0 | D10 => Pr D0 D0 | D11 => Pr D0 D0 | D12 => Pr D0 D0 | D13 => Pr D0 D0 | D14 => Pr D0 D0 | D15 => Pr D0 D0 | D16 => Pr D0 D0 | D17 => Pr D0 D0 | D18 => Pr D0 D0 | D19 => Pr D0 D0 | D20 => Pr D0 D0 | D21 => Pr D0 D0 | D22 => Pr D0 D0 | D23 => Pr D0 D0 | D24 => Pr D0 D0 | D25 => Pr D0 D0 | D26 => Pr D0 D0 | D27 => Pr D0 D0 | D28 => Pr D0 D0 | D29 => Pr D0 D0 | D30 => Pr D0 D0 | D31 => Pr D0 D0 | D32 => Pr D0 D0 | D33 => Pr D0 D0 | D34 => Pr D0 D0 | D35 => Pr D0 D0 | D36 => Pr D0 D0 | D37 => Pr D0 D0 | D38 => Pr D0 D0 | D39 => Pr D0 D0 | D40 => Pr D0 D0 | D41 => Pr D0 D0 | D42 => Pr D0 D0 | D43 => Pr D0 D0 | D44 => Pr D0 D0 | D45 => Pr D0 D0 | D46 => Pr D0 D0 | D47 => Pr D0 D0 | D48 => Pr D0 D0 | D49 => Pr D0 D0 | D50 => Pr D0 D0 | D51 => Pr D0 D0 | D52 => Pr D0 D0 | D53 => Pr D0 D0 | D54 => Pr D0 D0 | D55 => Pr D0 D0 | D56 => Pr D0 D0 | D57 => Pr D0 D0 | D58 => Pr D0 D0 | D59 => Pr D0 D0 | D60 => Pr D0 D0 | D61 => Pr D0 D0 | D62 => Pr D0 D0 | D63 => Pr D0 D0 end
| D1 => match b with D0 => Pr D0 D0 | D1 => Pr D0 D1 | D2 => Pr D0 D2 | D3 => Pr D0 D3 | D4 => Pr D0 D4 | D5 => Pr D0 D5 | D6 => Pr D0 D6 | D7 => Pr D0 D7 | D8 => Pr D0 D8 | D9 => Pr D0 D9 | D10 => Pr D0 D10 | D11 => Pr D0 D11 | D12 => Pr D0 D12 | D13 => Pr D0 D13 | D14 => Pr D0 D14 | D15 => Pr D0 D15 | D16 => Pr D0 D16 | D17 => Pr D0 D17 | D18 => Pr D0 D18 | D19 => Pr D0 D19 | D20 => Pr D0 D20 | D21 => Pr D0 D21 | D22 => Pr D0 D22 | D23 => Pr D0 D23 | D24 => Pr D0 D24 | D25 => Pr D0 D25 | D26 => Pr D0 D26 | D27 => Pr D0 D27 | D28 => Pr D0 D28 | D29 => Pr D0 D29 | D30 => Pr D0 D30 | D31 => Pr D0 D31 | D32 => Pr D0 D32 | D33 => Pr D0 D33 | D34 => Pr D0 D34 | D35 => Pr D0 D35 | D36 => Pr D0 D36 | D37 => Pr D0 D37 | D38 => Pr D0 D38 | D39 => Pr D0 D39 | D40 => Pr D0 D40 | D41 => Pr D0 D41 | D42 => Pr D0 D42 | D43 => Pr D0 D43 | D44 => Pr D0 D44 | D45 => Pr D0 D45 | D46 => Pr D0 D46 | D47 => Pr D0 D47 | D48 => Pr D0 D48 | D49 => Pr D0 D49 | D50 => Pr D0 D50 | D51 => Pr D0 D51 | D52 => Pr D0 D52 | D53 => Pr D0 D53 | D54 => Pr D0 D54 | D55 => Pr D0 D55 | D56 => Pr D0 D56 | D57 => Pr D0 D57 | D58 => Pr D0 D58 | D59 => Pr D0 D59 | D60 => Pr D0 D60 | D61 => Pr D0 D61 | D62 => Pr D0 D62 | D63 => Pr D0 D63 end
| D2 => match b with D0 => Pr D0 D0 | D1 => Pr D0 D2 | D2 => Pr D0 D4 | D3 => Pr D0 D6 | D4 => Pr D0 D8 | D5 => Pr D0 D10 | D6 => Pr D0 D12 | D7 => Pr D0 D14 | D8 => Pr D0 D16 | D9 => Pr D0 D18 | D10 => Pr D0 D20 | D11 => Pr D0 D22 | D12 => Pr D0 D24 | D13 => Pr D0 D26 | D14 => Pr D0 D28 | D15 => Pr D0 D30 | D16 => Pr D0 D32 | D17 => Pr D0 D34 | D18 => Pr D0 D36 | D19 => Pr D0 D38 | D20 => Pr D0 D40 | D21 => Pr D0 D42 | D22 => Pr D0 D44 | D23 => Pr D0 D46 | D24 => Pr D0 D48 | D25 => Pr D0 D50 | D26 => Pr D0 D52 | D27 => Pr D0 D54 | D28 => Pr D0 D56 | D29 => Pr D0 D58 | D30 => Pr D0 D60 | D31 => Pr D0 D62 | D32 => Pr D1 D0 | D33 => Pr D1 D2 | D34 => Pr D1 D4 | D35 => Pr D1 D6 | D36 => Pr D1 D8 | D37 => Pr D1 D10 | D38 => Pr D1 D12 | D39 => Pr D1 D14 | D40 => Pr D1 D16 | D41 => Pr D1 D18 | D42 => Pr D1 D20 | D43 => Pr D1 D22 | D44 => Pr D1 D24 | D45 => Pr D1 D26 | D46 => Pr D1 D28 | D47 => Pr D1 D30 | D48 => Pr D1 D32 | D49 => Pr D1 D34 | D50 => Pr D1 D36 | D51 => Pr D1 D38 | D52 => Pr D1 D40 | D53 => Pr D1 D42 | D54 => Pr D1 D44 | D55 => Pr D1 D46 | D56 => Pr D1 D48 | D57 => Pr D1 D50 | D58 => Pr D1 D52 | D59 => Pr D1 D54 | D60 => Pr D1 D56 | D61 => Pr D1 D58 | D62 => Pr D1 D60 | D63 => Pr D1 D62 end
| D3 => match b with D0 => Pr D0 D0 | D1 => Pr D0 D3 | D2 => Pr D0 D6 | D3 => Pr D0 D9 | D4 => Pr D0 D12 | D5 => Pr D0 D15 | D6 => Pr D0 D18 | D7 => Pr D0 D21 | D8 => Pr D0 D24 | D9 => Pr D0 D27 | D10 => Pr D0 D30 | D11 => Pr D0 D33 | D12 => Pr D0 D36 | D13 => Pr D0 D39 | D14 => Pr D0 D42 | D15 => Pr D0 D45 | D16 => Pr D0 D48 | D17 => Pr D0 D51 | D18 => Pr D0 D54 | D19 => Pr D0 D57 | D20 => Pr D0 D60 | D21 => Pr D0 D63 | D22 => Pr D1 D2 | D23 => Pr D1 D5 | D24 => Pr D1 D8 | D25 => Pr D1 D11 | D26 => Pr D1 D14 | D27 => Pr D1 D17 | D28 => Pr D1 D20 | D29 => Pr D1 D23 | D30 => Pr D1 D26 | D31 => Pr D1 D29 | D32 => Pr D1 D32 | D33 => Pr D1 D35 | D34 => Pr D1 D38 | D35 => Pr D1 D41 | D36 => Pr D1 D44 | D37 => Pr D1 D47 | D38 => Pr D1 D50 | D39 => Pr D1 D53 | D40 => Pr D1 D56 | D41 => Pr D1 D59 | D42 => Pr D1 D62 | D43 => Pr D2 D1 | D44 => Pr D2 D4 | D45 => Pr D2 D7 | D46 => Pr D2 D10 | D47 => Pr D2 D13 | D48 => Pr D2 D16 | D49 => Pr D2 D19 | D50 => Pr D2 D22 | D51 => Pr D2 D25 | D52 => Pr D2 D28 | D53 => Pr D2 D31 | D54 => Pr D2 D34 | D55 => Pr D2 D37 | D56 => Pr D2 D40 | D57 => Pr D2 D43 | D58 => Pr D2 D46 | D59 => Pr D2 D49 | D60 => Pr D2 D52 | D61 => Pr D2 D55 | D62 => Pr D2 D58 | D63 => Pr D2 D61 end
| D4 => match b with D0 => Pr D0 D0 | D1 => Pr D0 D4 | D2 => Pr D0 D8 | D3 => Pr D0 D12 | D4 => Pr D0 D16 | D5 => Pr D0 D20 | D6 => Pr D0 D24 | D7 => Pr D0 D28 | D8 => Pr D0 D32 | D9 => Pr D0 D36 | D10 => Pr D0 D40 | D11 => Pr D0 D44 | D12 => Pr D0 D48 | D13 => Pr D0 D52 | D14 => Pr D0 D56 | D15 => Pr D0 D60 | D16 => Pr D1 D0 | D17 => Pr D1 D4 | D18 => Pr D1 D8 | D19 => Pr D1 D12 | D20 => Pr D1 D16 | D21 => Pr D1 D20 | D22 => Pr D1 D24 | D23 => Pr D1 D28 | D24 => Pr D1 D32 | D25 => Pr D1 D36 | D26 => Pr D1 D40 | D27 => Pr D1 D44 | D28 => Pr D1 D48 | D29 => Pr D1 D52 | D30 => Pr D1 D56 | D31 => Pr D1 D60 | D32 => Pr D2 D0 | D33 => Pr D2 D4 | D34 => Pr D2 D8 | D35 => Pr D2 D12 | D36 => Pr D2 D16 | D37 => Pr D2 D20 | D38 => Pr D2 D24 | D39 => Pr D2 D28 | D40 => Pr D2 D32 | D41 => Pr D2 D36 | D42 => Pr D2 D40 | D43 => Pr D2 D44 | D44 => Pr D2 D48 | D45 => Pr D2 D52 | D46 => Pr D2 D56 | D47 => Pr D2 D60 | D48 => Pr D3 D0 | D49 => Pr D3 D4 | D50 => Pr D3 D8 | D51 => Pr D3 D12 | D52 => Pr D3 D16 | D53 => Pr D3 D20 | D54 => Pr D3 D24 | D55 => Pr D3 D28 | D56 => Pr D3 D32 | D57 => Pr D3 D36 | D58 => Pr D3 D40 | D59 => Pr D3 D44 | D60 => Pr D3 D48 | D61 => Pr D3 D52 | D62 => Pr D3 D56 | D63 => Pr D3 D60 end
| D5 => match b with D0 => Pr D0 D0 | D1 => Pr D0 D5 | D2 => Pr D0 D10 | D3 => Pr D0 D15 | D4 => Pr D0 D20 | D5 => Pr D0 D25 | D6 => Pr D0 D30 | D7 => Pr D0 D35 | D8 => Pr D0 D40 | D9 => Pr D0 D45 | D10 => Pr D0 D50 | D11 => Pr D0 D55 | D12 => Pr D0 D60 | D13 => Pr D1 D1 | D14 => Pr D1 D6 | D15 => Pr D1 D11 | D16 => Pr D1 D16 | D17 => Pr D1 D21 | D18 => Pr D1 D26 | D19 => Pr D1 D31 | D20 => Pr D1 D36 | D21 => Pr D1 D41 | D22 => Pr D1 D46 | D23 => Pr D1 D51 | D24 => Pr D1 D56 | D25 => Pr D1 D61 | D26 => Pr D2 D2 | D27 => Pr D2 D7 | D28 => Pr D2 D12 | D29 => Pr D2 D17 | D30 => Pr D2 D22 | D31 => Pr D2 D27 | D32 => Pr D2 D32 | D33 => Pr D2 D37 | D34 => Pr D2 D42 | D35 => Pr D2 D47 | D36 => Pr D2 D52 | D37 => Pr D2 D57 | D38 => Pr D2 D62 | D39 => Pr D3 D3 | D40 => Pr D3 D8 | D41 => Pr D3 D13 | D42 => Pr D3 D18 | D43 => Pr D3 D23 | D44 => Pr D3 D28 | D45 => Pr D3 D33 | D46 => Pr D3 D38 | D47 => Pr D3 D43 | D48 => Pr D3 D48 | D49 => Pr D3 D53 | D50 => Pr D3 D58 | D51 => Pr D3 D63 | D52 => Pr D4 D4 | D53 => Pr D4 D9 | D54 => Pr D4 D14 | D55 => Pr D4 D19 | D56 => Pr D4 D24 | D57 => Pr D4 D29 | D58 => Pr D4 D34 | D59 => Pr D4 D39 | D60 => Pr D4 D44 | D61 => Pr D4 D49 | D62 => Pr D4 D54 | D63 => Pr D4 D59 end
| D6 => match b with D0 => Pr D0 D0 | D1 => Pr D0 D6 | D2 => Pr D0 D12 | D3 => Pr D0 D18 | D4 => Pr D0 D24 | D5 => Pr D0 D30 | D6 => Pr D0 D36 | D7 => Pr D0 D42 | D8 => Pr D0 D48 | D9 => Pr D0 D54 | D10 => Pr D0 D60 | D11 => Pr D1 D2 | D12 => Pr D1 D8 | D13 => Pr D1 D14 | D14 => Pr D1 D20 | D15 => Pr D1 D26 | D16 => Pr D1 D32 | D17 => Pr D1 D38 | D18 => Pr D1 D44 | D19 => Pr D1 D50 | D20 => Pr D1 D56 | D21 => Pr D1 D62 | D22 => Pr D2 D4 | D23 => Pr D2 D10 | D24 => Pr D2 D16 | D25 => Pr D2 D22 | D26 => Pr D2 D28 | D27 => Pr D2 D34 | D28 => Pr D2 D40 | D29 => Pr D2 D46 | D30 => Pr D2 D52 | D31 => Pr D2 D58 | D32 => Pr D3 D0 | D33 => Pr D3 D6 | D34 => Pr D3 D12 | D35 => Pr D3 D18 | D36 => Pr D3 D24 | D37 => Pr D3 D30 | D38 => Pr D3 D36 | D39 => Pr D3 D42 | D40 => Pr D3 D48 | D41 => Pr D3 D54 | D42 => Pr D3 D60 | D43 => Pr D4 D2 | D44 => Pr D4 D8 | D45 => Pr D4 D14 | D46 => Pr D4 D20 | D47 => Pr D4 D26 | D48 => Pr D4 D32 | D49 => Pr D4 D38 | D50 => Pr D4 D44 | D51 => Pr D4 D50 | D52 => Pr D4 D56 | D53 => Pr D4 D62 | D54 => Pr D5 D4 | D55 => Pr D5 D10 | D56 => Pr D5 D16 | D57 => Pr D5 D22 | D58 => Pr D5 D28 | D59 => Pr D5 D34 | D60 => Pr D5 D40 | D61 => Pr D5 D46 | D62 => Pr D5 D52 | D63 => Pr D5 D58 end
| D7 => match b with D0 => Pr D0 D0 | D1 => Pr D0 D7 | D2 => Pr D0 D14 | D3 => Pr D0 D21 | D4 => Pr D0 D28 | D5 => Pr D0 D35 | D6 => Pr D0 D42 | D7 => Pr D0 D49 | D8 => Pr D0 D56 | D9 => Pr D0 D63 | D10 => Pr D1 D6 | D11 => Pr D1 D13 | D12 => Pr D1 D20 | D13 => Pr D1 D27 | D14 => Pr D1 D34 | D15 => Pr D1 D41 | D16 => Pr D1 D48 | D17 => Pr D1 D55 | D18 => Pr D1 D62 | D19 => Pr D2 D5 | D20 => Pr D2 D12 | D21 => Pr D2 D19 | D22 => Pr D2 D26 | D23 => Pr D2 D33 | D24 => Pr D2 D40 | D25 => Pr D2 D47 | D26 => Pr D2 D54 | D27 => Pr D2 D61 | D28 => Pr D3 D4 | D29 => Pr D3 D11 | D30 => Pr D3 D18 | D31 => Pr D3 D25 | D32 => Pr D3 D32 | D33 => Pr D3 D39 | D34 => Pr D3 D46 | D35 => Pr D3 D53 | D36 => Pr D3 D60 | D37 => Pr D4 D3 | D38 => Pr D4 D10 | D39 => Pr D4 D17 | D40 => Pr D4 D24 | D41 => Pr D4 D31 | D42 => Pr D4 D38 | D43 => Pr D4 D45 | D44 => Pr D4 D52 | D45 => Pr D4 D59 | D46 => Pr D5 D2 | D47 => Pr D5 D9 | D48 => Pr D5 D16 | D49 => Pr D5 D23 | D50 => Pr D5 D30 | D51 => Pr D5 D37 | D52 => Pr D5 D44 | D53 => Pr D5 D51 | D54 => Pr D5 D58 | D55 => Pr D6 D1 | D56 => Pr D6 D8 | D57 => Pr D6 D15 | D58 => Pr D6 D22 | D59 => Pr D6 D29 | D60 => Pr D6 D36 | D61 => Pr D6 D43 | D62 => Pr D6 D50 | D63 => Pr D6 D57 end
| D8 => match b with D0 => Pr D0 D0 | D1 => Pr D0 D8 | D2 => Pr D0 D16 | D3 => Pr D0 D24 | D4 => Pr D0 D32 | D5 => Pr D0 D40 | D6 => Pr D0 D48 | D7 => Pr D0 D56 | D8 => Pr D1 D0 | D9 => Pr D1 D8 | D10 => Pr D1 D16 | D11 => Pr D1 D24 | D12 => Pr D1 D32 | D13 => Pr D1 D40 | D14 => Pr D1 D48 | D15 => Pr D1 D56 | D16 => Pr D2 D0 | D17 => Pr D2 D8 | D18 => Pr D2 D16 | D19 => Pr D2 D24 | D20 => Pr D2 D32 | D21 => Pr D2 D40 | D22 => Pr D2 D48 | D23 => Pr D2 D56 | D24 => Pr D3 D0 | D25 => Pr D3 D8 | D26 => Pr D3 D16 | D27 => Pr D3 D24 | D28 => Pr D3 D32 | D29 => Pr D3 D40 | D30 => Pr D3 D48 | D31 => Pr D3 D56 | D32 => Pr D4 D0 | D33 => Pr D4 D8 | D34 => Pr D4 D16 | D35 => Pr D4 D24 | D36 => Pr D4 D32 | D37 => Pr D4 D40 | D38 => Pr D4 D48 | D39 => Pr D4 D56 | D40 => Pr D5 D0 | D41 => Pr D5 D8 | D42 => Pr D5 D16 | D43 => Pr D5 D24 | D44 => Pr D5 D32 | D45 => Pr D5 D40 | D46 => Pr D5 D48 | D47 => Pr D5 D56 | D48 => Pr D6 D0 | D49 => Pr D6 D8 | D50 => Pr D6 D16 | D51 => Pr D6 D24 | D52 => Pr D6 D32 | D53 => Pr D6 D40 | D54 => Pr D6 D48 | D55 => Pr D6 D56 | D56 => Pr D7 D0 | D57 => Pr D7 D8 | D58 => Pr D7 D16 | D59 => Pr D7 D24 | D60 => Pr D7 D32 | D61 => Pr D7 D40 | D62 => Pr D7 D48 | D63 => Pr D7 D56 end
| D9 => match b with D0 => Pr D0 D0 | D1 => Pr D0 D9 | D2 => Pr D0 D18 | D3 => Pr D0 D27 | D4 => Pr D0 D36 | D5 => Pr D0 D45 | D6 => Pr D0 D54 | D7 => Pr D0 D63 | D8 => Pr D1 D8 | D9 => Pr D1 D17 | D10 => Pr D1 D26 | D11 => Pr D1 D35 | D12 => Pr D1 D44 | D13 => Pr D1 D53 | D14 => Pr D1 D62 | D15 => Pr D2 D7 | D16 => Pr D2 D16 | D17 => Pr D2 D25 | D18 => Pr D2 D34 | D19 => Pr D2 D43 | D20 => Pr D2 D52 | D21 => Pr D2 D61 | D22 => Pr D3 D6 | D23 => Pr D3 D15 | D24 => Pr D3 D24 | D25 => Pr D3 D33 | D26 => Pr D3 D42 | D27 => Pr D3 D51 | D28 => Pr D3 D60 | D29 => Pr D4 D5 | D30 => Pr D4 D14 | D31 => Pr D4 D23 | D32 => Pr D4 D32 | D33 => Pr D4 D41 | D34 => Pr D4 D50 | D35 => Pr D4 D59 | D36 => Pr D5 D4 | D37 => Pr D5 D13 | D38 => Pr D5 D22 | D39 => Pr D5 D31 | D40 => Pr D5 D40 | D41 => Pr D5 D49 | D42 => Pr D5 D58 | D43 => Pr D6 D3 | D44 => Pr D6 D12 | D45 => Pr D6 D21 | D46 => Pr D6 D30 | D47 => Pr D6 D39 | D48 => Pr D6 D48 | D49 => Pr D6 D57 | D50 => Pr D7 D2 | D51 => Pr D7 D11 | D52 => Pr D7 D20 | D53 => Pr D7 D29 | D54 => Pr D7 D38 | D55 => Pr D7 D47 | D56 => Pr D7 D56 | D57 => Pr D8 D1 | D58 => Pr D8 D10 | D59 => Pr D8 D19 | D60 => Pr D8 D28 | D61 => Pr D8 D37 | D62 => Pr D8 D46 | D63 => Pr D8 D55 end
| D10 => match b with D0 => Pr D0 D0 | D1 => Pr D0 D10 | D2 => Pr D0 D20 | D3 => Pr D0 D30 | D4 => Pr D0 D40 | D5 => Pr D0 D50 | D6 => Pr D0 D60 | D7 => Pr D1 D6 | D8 => Pr D1 D16 | D9 => Pr D1 D26 | D10 => Pr D1 D36 | D11 => Pr D1 D46 | D12 => Pr D1 D56 | D13 => Pr D2 D2 | D14 => Pr D2 D12 | D15 => Pr D2 D22 | D16 => Pr D2 D32 | D17 => Pr D2 D42 | D18 => Pr D2 D52 | D19 => Pr D2 D62 | D20 => Pr D3 D8 | D21 => Pr D3 D18 | D22 => Pr D3 D28 | D23 => Pr D3 D38 | D24 => Pr D3 D48 | D25 => Pr D3 D58 | D26 => Pr D4 D4 | D27 => Pr D4 D14 | D28 => Pr D4 D24 | D29 => Pr D4 D34 | D30 => Pr D4 D44 | D31 => Pr D4 D54 | D32 => Pr D5 D0 | D33 => Pr D5 D10 | D34 => Pr D5 D20 | D35 => Pr D5 D30 | D36 => Pr D5 D40 | D37 => Pr D5 D50 | D38 => Pr D5 D60 | D39 => Pr D6 D6 | D40 => Pr D6 D16 | D41 => Pr D6 D26 | D42 => Pr D6 D36 | D43 => Pr D6 D46 | D44 => Pr D6 D56 | D45 => Pr D7 D2 | D46 => Pr D7 D12 | D47 => Pr D7 D22 | D48 => Pr D7 D32 | D49 => Pr D7 D42 | D50 => Pr D7 D52 | D51 => Pr D7 D62 | D52 => Pr D8 D8 | D53 => Pr D8 D18 | D54 => Pr D8 D28 | D55 => Pr D8 D38 | D56 => Pr D8 D48 | D57 => Pr D8 D58 | D58 => Pr D9 D4 | D59 => Pr D9 D14 | D60 => Pr D9 D24 | D61 => Pr D9 D34 | D62 => Pr D9 D44 | D63 => Pr D9 D54 end
| D11 => match b with D0 => Pr D0 D0 | D1 => Pr D0 D11 | D2 => Pr D0 D22 | D3 => Pr D0 D33 | D4 => Pr D0 D44 | D5 => Pr D0 D55 | D6 => Pr D1 D2 | D7 => Pr D1 D13 | D8 => Pr D1 D24 | D9 => Pr D1 D35 | D10 => Pr D1 D46 | D11 => Pr D1 D57 | D12 => Pr D2 D4 | D13 => Pr D2 D15 | D14 => Pr D2 D26 | D15 => Pr D2 D37 | D16 => Pr D2 D48 | D17 => Pr D2 D59 | D18 => Pr D3 D6 | D19 => Pr D3 D17 | D20 => Pr D3 D28 | D21 => Pr D3 D39 | D22 => Pr D3 D50 | D23 => Pr D3 D61 | D24 => Pr D4 D8 | D25 => Pr D4 D19 | D26 => Pr D4 D30 | D27 => Pr D4 D41 | D28 => Pr D4 D52 | D29 => Pr D4 D63 | D30 => Pr D5 D10 | D31 => Pr D5 D21 | D32 => Pr D5 D32 | D33 => Pr D5 D43 | D34 => Pr D5 D54 | D35 => Pr D6 D1 | D36 => Pr D6 D12 | D37 => Pr D6 D23 | D38 => Pr D6 D34 | D39 => Pr D6 D45 | D40 => Pr D6 D56 | D41 => Pr D7 D3 | D42 => Pr D7 D14 | D43 => Pr D7 D25 | D44 => Pr D7 D36 | D45 => Pr D7 D47 | D46 => Pr D7 D58 | D47 => Pr D8 D5 | D48 => Pr D8 D16 | D49 => Pr D8 D27 | D50 => Pr D8 D38 | D51 => Pr D8 D49 | D52 => Pr D8 D60 | D53 => Pr D9 D7 | D54 => Pr D9 D18 | D55 => Pr D9 D29 | D56 => Pr D9 D40 | D57 => Pr D9 D51 | D58 => Pr D9 D62 | D59 => Pr D10 D9 | D60 => Pr D10 D20 | D61 => Pr D10 D31 | D62 => Pr D10 D42 | D63 => Pr D10 D53 end
| D12 => match b with D0 => Pr D0 D0 | D1 => Pr D0 D12 | D2 => Pr D0 D24 | D3 => Pr D0 D36 | D4 => Pr D0 D48 | D5 => Pr D0 D60 | D6 => Pr D1 D8 | D7 => Pr D1 D20 | D8 => Pr D1 D32 | D9 => Pr D1 D44 | D10 => Pr D1 D56 | D11 => Pr D2 D4 | D12 => Pr D2 D16 | D13 => Pr D2 D28 | D14 => Pr D2 D40 | D15 => Pr D2 D52 | D16 => Pr D3 D0 | D17 => Pr D3 D12 | D18 => Pr D3 D24 | D19 => Pr D3 D36 | D20 => Pr D3 D48 | D21 => Pr D3 D60 | D22 => Pr D4 D8 | D23 => Pr D4 D20 | D24 => Pr D4 D32 | D25 => Pr D4 D44 | D26 => Pr D4 D56 | D27 => Pr D5 D4 | D28 => Pr D5 D16 | D29 => Pr D5 D28 | D30 => Pr D5 D40 | D31 => Pr D5 D52 | D32 => Pr D6 D0 | D33 => Pr D6 D12 | D34 => Pr D6 D24 | D35 => Pr D6 D36 | D36 => Pr D6 D48 | D37 => Pr D6 D60 | D38 => Pr D7 D8 | D39 => Pr D7 D20 | D40 => Pr D7 D32 | D41 => Pr D7 D44 | D42 => Pr D7 D56 | D43 => Pr D8 D4 | D44 => Pr D8 D16 | D45 => Pr D8 D28 | D46 => Pr D8 D40 | D47 => Pr D8 D52 | D48 => Pr D9 D0 | D49 => Pr D9 D12 | D50 => Pr D9 D24 | D51 => Pr D9 D36 | D52 => Pr D9 D48 | D53 => Pr D9 D60 | D54 => Pr D10 D8 | D55 => Pr D10 D20 | D56 => Pr D10 D32 | D57 => Pr D10 D44 | D58 => Pr D10 D56 | D59 => Pr D11 D4 | D60 => Pr D11 D16 | D61 => Pr D11 D28 | D62 => Pr D11 D40 | D63 => Pr D11 D52 end
| D13 => match b with D0 => Pr D0 D0 | D1 => Pr D0 D13 | D2 => Pr D0 D26 | D3 => Pr D0 D39 | D4 => Pr D0 D52 | D5 => Pr D1 D1 | D6 => Pr D1 D14 | D7 => Pr D1 D27 | D8 => Pr D1 D40 | D9 => Pr D1 D53 | D10 => Pr D2 D2 | D11 => Pr D2 D15 | D12 => Pr D2 D28 | D13 => Pr D2 D41 | D14 => Pr D2 D54 | D15 => Pr D3 D3 | D16 => Pr D3 D16 | D17 => Pr D3 D29 | D18 => Pr D3 D42 | D19 => Pr D3 D55 | D20 => Pr D4 D4 | D21 => Pr D4 D17 | D22 => Pr D4 D30 | D23 => Pr D4 D43 | D24 => Pr D4 D56 | D25 => Pr D5 D5 | D26 => Pr D5 D18 | D27 => Pr D5 D31 | D28 => Pr D5 D44 | D29 => Pr D5 D57 | D30 => Pr D6 D6 | D31 => Pr D6 D19 | D32 => Pr D6 D32 | D33 => Pr D6 D45 | D34 => Pr D6 D58 | D35 => Pr D7 D7 | D36 => Pr D7 D20 | D37 => Pr D7 D33 | D38 => Pr D7 D46 | D39 => Pr D7 D59 | D40 => Pr D8 D8 | D41 => Pr D8 D21 | D42 => Pr D8 D34 | D43 => Pr D8 D47 | D44 => Pr D8 D60 | D45 => Pr D9 D9 | D46 => Pr D9 D22 | D47 => Pr D9 D35 | D48 => Pr D9 D48 | D49 => Pr D9 D61 | D50 => Pr D10 D10 | D51 => Pr D10 D23 | D52 => Pr D10 D36 | D53 => Pr D10 D49 | D54 => Pr D10 D62 | D55 => Pr D11 D11 | D56 => Pr D11 D24 | D57 => Pr D11 D37 | D58 => Pr D11 D50 | D59 => Pr D11 D63 | D60 => Pr D12 D12 | D61 => Pr D12 D25 | D62 => Pr D12 D38 | D63 => Pr D12 D51 end
| D14 => match b with D0 => Pr D0 D0 | D1 => Pr D0 D14 | D2 => Pr D0 D28 | D3 => Pr D0 D42 | D4 => Pr D0 D56 | D5 => Pr D1 D6 | D6 => Pr D1 D20 | D7 => Pr D1 D34 | D8 => Pr D1 D48 | D9 => Pr D1 D62 | D10 => Pr D2 D12 | D11 => Pr D2 D26 | D12 => Pr D2 D40 | D13 => Pr D2 D54 | D14 => Pr D3 D4 | D15 => Pr D3 D18 | D16 => Pr D3 D32 | D17 => Pr D3 D46 | D18 => Pr D3 D60 | D19 => Pr D4 D10 | D20 => Pr D4 D24 | D21 => Pr D4 D38 | D22 => Pr D4 D52 | D23 => Pr D5 D2 | D24 => Pr D5 D16 | D25 => Pr D5 D30 | D26 => Pr D5 D44 | D27 => Pr D5 D58 | D28 => Pr D6 D8 | D29 => Pr D6 D22 | D30 => Pr D6 D36 | D31 => Pr D6 D50 | D32 => Pr D7 D0 | D33 => Pr D7 D14 | D34 => Pr D7 D28 | D35 => Pr D7 D42 | D36 => Pr D7 D56 | D37 => Pr D8 D6 | D38 => Pr D8 D20 | D39 => Pr D8 D34 | D40 => Pr D8 D48 | D41 => Pr D8 D62 | D42 => Pr D9 D12 | D43 => Pr D9 D26 | D44 => Pr D9 D40 | D45 => Pr D9 D54 | D46 => Pr D10 D4 | D47 => Pr D10 D18 | D48 => Pr D10 D32 | D49 => Pr D10 D46 | D50 => Pr D10 D60 | D51 => Pr D11 D10 | D52 => Pr D11 D24 | D53 => Pr D11 D38 | D54 => Pr D11 D52 | D55 => Pr D12 D2 | D56 => Pr D12 D16 | D57 => Pr D12 D30 | D58 => Pr D12 D44 | D59 => Pr D12 D58 | D60 => Pr D13 D8 | D61 => Pr D13 D22 | D62 => Pr D13 D36 | D63 => Pr D13 D50 end
| D15 => match b with D0 => Pr D0 D0 | D1 => Pr D0 D15 | D2 => Pr D0 D30 | D3 => Pr D0 D45 | D4 => Pr D0 D60 | D5 => Pr D1 D11 | D6 => Pr D1 D26 | D7 => Pr D1 D41 | D8 => Pr D1 D56 | D9 => Pr D2 D7 | D10 => Pr D2 D22 | D11 => Pr D2 D37 | D12 => Pr D2 D52 | D13 => Pr D3 D3 | D14 => Pr D3 D18 | D15 => Pr D3 D33 | D16 => Pr D3 D48 | D17 => Pr D3 D63 | D18 => Pr D4 D14 | D19 => Pr D4 D29 | D20 => Pr D4 D44 | D21 => Pr D4 D59 | D22 => Pr D5 D10 | D23 => Pr D5 D25 | D24 => Pr D5 D40 | D25 => Pr D5 D55 | D26 => Pr D6 D6 | D27 => Pr D6 D21 | D28 => Pr D6 D36 | D29 => Pr D6 D51 | D30 => Pr D7 D2 | D31 => Pr D7 D17 | D32 => Pr D7 D32 | D33 => Pr D7 D47 | D34 => Pr D7 D62 | D35 => Pr D8 D13 | D36 => Pr D8 D28 | D37 => Pr D8 D43 | D38 => Pr D8 D58 | D39 => Pr D9 D9 | D40 => Pr D9 D24 | D41 => Pr D9 D39 | D42 => Pr D9 D54 | D43 => Pr D10 D5 | D44 => Pr D10 D20 | D45 => Pr D10 D35 | D46 => Pr D10 D50 | D47 => Pr D11 D1 | D48 => Pr D11 D16 | D49 => Pr D11 D31 | D50 => Pr D11 D46 | D51 => Pr D11 D61 | D52 => Pr D12 D12 | D53 => Pr D12 D27 | D54 => Pr D12 D42 | D55 => Pr D12 D57 | D56 => Pr D13 D8 | D57 => Pr D13 D23 | D58 => Pr D13 D38 | D59 => Pr D13 D53 | D60 => Pr D14 D4 | D61 => Pr D14 D19 | D62 => Pr D14 D34 | D63 => Pr D14 D49 end
| D16 => match b with D0 => Pr D0 D0 | D1 => Pr D0 D16 | D2 => Pr D0 D32 | D3 => Pr D0 D48 | D4 => Pr D1 D0 | D5 => Pr D1 D16 | D6 => Pr D1 D32 | D7 => Pr D1 D48 | D8 => Pr D2 D0 | D9 => Pr D2 D16 | D10 => Pr D2 D32 | D11 => Pr D2 D48 | D12 => Pr D3 D0 | D13 => Pr D3 D16 | D14 => Pr D3 D32 | D15 => Pr D3 D48 | D16 => Pr D4 D0 | D17 => Pr D4 D16 | D18 => Pr D4 D32 | D19 => Pr D4 D48 | D20 => Pr D5 D0 | D21 => Pr D5 D16 | D22 => Pr D5 D32 | D23 => Pr D5 D48 | D24 => Pr D6 D0 | D25 => Pr D6 D16 | D26 => Pr D6 D32 | D27 => Pr D6 D48 | D28 => Pr D7 D0 | D29 => Pr D7 D16 | D30 => Pr D7 D32 | D31 => Pr D7 D48 | D32 => Pr D8 D0 | D33 => Pr D8 D16 | D34 => Pr D8 D32 | D35 => Pr D8 D48 | D36 => Pr D9 D0 | D37 => Pr D9 D16 | D38 => Pr D9 D32 | D39 => Pr D9 D48 | D40 => Pr D10 D0 | D41 => Pr D10 D16 | D42 => Pr D10 D32 | D43 => Pr D10 D48 | D44 => Pr D11 D0 | D45 => Pr D11 D16 | D46 => Pr D11 D32 | D47 => Pr D11 D48 | D48 => Pr D12 D0 | D49 => Pr D12 D16 | D50 => Pr D12 D32 | D51 => Pr D12 D48 | D52 => Pr D13 D0 | D53 => Pr D13 D16 | D54 => Pr D13 D32 | D55 => Pr D13 D48 | D56 => Pr D14 D0 | D57 => Pr D14 D16 | D58 => Pr D14 D32 | D59 => Pr D14 D48 | D60 => Pr D15 D0 | D61 => Pr D15 D16 | D62 => Pr D15 D32 | D63 => Pr D15 D48 end
| D17 => match b with D0 => Pr D0 D0 | D1 => Pr D0 D17 | D2 => Pr D0 D34 | D3 => Pr D0 D51 | D4 => Pr D1 D4 | D5 => Pr D1 D21 | D6 => Pr D1 D38 | D7 => Pr D1 D55 | D8 => Pr D2 D8 | D9 => Pr D2 D25 | D10 => Pr D2 D42 | D11 => Pr D2 D59 | D12 => Pr D3 D12 | D13 => Pr D3 D29 | D14 => Pr D3 D46 | D15 => Pr D3 D63 | D16 => Pr D4 D16 | D17 => Pr D4 D33 | D18 => Pr D4 D50 | D19 => Pr D5 D3 | D20 => Pr D5 D20 | D21 => Pr D5 D37 | D22 => Pr D5 D54 | D23 => Pr D6 D7 | D24 => Pr D6 D24 | D25 => Pr D6 D41 | D26 => Pr D6 D58 | D27 => Pr D7 D11 | D28 => Pr D7 D28 | D29 => Pr D7 D45 | D30 => Pr D7 D62 | D31 => Pr D8 D15 | D32 => Pr D8 D32 | D33 => Pr D8 D49 | D34 => Pr D9 D2 | D35 => Pr D9 D19 | D36 => Pr D9 D36 | D37 => Pr D9 D53 | D38 => Pr D10 D6 | D39 => Pr D10 D23 | D40 => Pr D10 D40 | D41 => Pr D10 D57 | D42 => Pr D11 D10 | D43 => Pr D11 D27 | D44 => Pr D11 D44 | D45 => Pr D11 D61 | D46 => Pr D12 D14 | D47 => Pr D12 D31 | D48 => Pr D12 D48 | D49 => Pr D13 D1 | D50 => Pr D13 D18 | D51 => Pr D13 D35 | D52 => Pr D13 D52 | D53 => Pr D14 D5 | D54 => Pr D14 D22 | D55 => Pr D14 D39 | D56 => Pr D14 D56 | D57 => Pr D15 D9 | D58 => Pr D15 D26 | D59 => Pr D15 D43 | D60 => Pr D15 D60 | D61 => Pr D16 D13 | D62 => Pr D16 D30 | D63 => Pr D16 D47 end
| D18 => match b with D0 => Pr D0 D0 | D1 => Pr D0 D18 | D2 => Pr D0 D36 | D3 => Pr D0 D54 | D4 => Pr D1 D8 | D5 => Pr D1 D26 | D6 => Pr D1 D44 | D7 => Pr D1 D62 | D8 => Pr D2 D16 | D9 => Pr D2 D34 | D10 => Pr D2 D52 | D11 => Pr D3 D6 | D12 => Pr D3 D24 | D13 => Pr D3 D42 | D14 => Pr D3 D60 | D15 => Pr D4 D14 | D16 => Pr D4 D32 | D17 => Pr D4 D50 | D18 => Pr D5 D4 | D19 => Pr D5 D22 | D20 => Pr D5 D40 | D21 => Pr D5 D58 | D22 => Pr D6 D12 | D23 => Pr D6 D30 | D24 => Pr D6 D48 | D25 => Pr D7 D2 | D26 => Pr D7 D20 | D27 => Pr D7 D38 | D28 => Pr D7 D56 | D29 => Pr D8 D10 | D30 => Pr D8 D28 | D31 => Pr D8 D46 | D32 => Pr D9 D0 | D33 => Pr D9 D18 | D34 => Pr D9 D36 | D35 => Pr D9 D54 | D36 => Pr D10 D8 | D37 => Pr D10 D26 | D38 => Pr D10 D44 | D39 => Pr D10 D62 | D40 => Pr D11 D16 | D41 => Pr D11 D34 | D42 => Pr D11 D52 | D43 => Pr D12 D6 | D44 => Pr D12 D24 | D45 => Pr D12 D42 | D46 => Pr D12 D60 | D47 => Pr D13 D14 | D48 => Pr D13 D32 | D49 => Pr D13 D50 | D50 => Pr D14 D4 | D51 => Pr D14 D22 | D52 => Pr D14 D40 | D53 => Pr D14 D58 | D54 => Pr D15 D12 | D55 => Pr D15 D30 | D56 => Pr D15 D48 | D57 => Pr D16 D2 | D58 => Pr D16 D20 | D59 => Pr D16 D38 | D60 => Pr D16 D56 | D61 => Pr D17 D10 | D62 => Pr D17 D28 | D63 => Pr D17 D46 end
| D19 => match b with D0 => Pr D0 D0 | D1 => Pr D0 D19 | D2 => Pr D0 D38 | D3 => Pr D0 D57 | D4 => Pr D1 D12 | D5 => Pr D1 D31 | D6 => Pr D1 D50 | D7 => Pr D2 D5 | D8 => Pr D2 D24 | D9 => Pr D2 D43 | D10 => Pr D2 D62 | D11 => Pr D3 D17 | D12 => Pr D3 D36 | D13 => Pr D3 D55 | D14 => Pr D4 D10 | D15 => Pr D4 D29 | D16 => Pr D4 D48 | D17 => Pr D5 D3 | D18 => Pr D5 D22 | D19 => Pr D5 D41 | D20 => Pr D5 D60 | D21 => Pr D6 D15 | D22 => Pr D6 D34 | D23 => Pr D6 D53 | D24 => Pr D7 D8 | D25 => Pr D7 D27 | D26 => Pr D7 D46 | D27 => Pr D8 D1 | D28 => Pr D8 D20 | D29 => Pr D8 D39 | D30 => Pr D8 D58 | D31 => Pr D9 D13 | D32 => Pr D9 D32 | D33 => Pr D9 D51 | D34 => Pr D10 D6 | D35 => Pr D10 D25 | D36 => Pr D10 D44 | D37 => Pr D10 D63 | D38 => Pr D11 D18 | D39 => Pr D11 D37 | D40 => Pr D11 D56 | D41 => Pr D12 D11 | D42 => Pr D12 D30 | D43 => Pr D12 D49 | D44 => Pr D13 D4 | D45 => Pr D13 D23 | D46 => Pr D13 D42 | D47 => Pr D13 D61 | D48 => Pr D14 D16 | D49 => Pr D14 D35 | D50 => Pr D14 D54 | D51 => Pr D15 D9 | D52 => Pr D15 D28 | D53 => Pr D15 D47 | D54 => Pr D16 D2 | D55 => Pr D16 D21 | D56 => Pr D16 D40 | D57 => Pr D16 D59 | D58 => Pr D17 D14 | D59 => Pr D17 D33 | D60 => Pr D17 D52 | D61 => Pr D18 D7 | D62 => Pr D18 D26 | D63 => Pr D18 D45 end
| D20 => match b with D0 => Pr D0 D0 | D1 => Pr D0 D20 | D2 => Pr D0 D40 | D3 => Pr D0 D60 | D4 => Pr D1 D16 | D5 => Pr D1 D36 | D6 => Pr D1 D56 | D7 => Pr D2 D12 | D8 => Pr D2 D32 | D9 => Pr D2 D52 | D10 => Pr D3 D8 | D11 => Pr D3 D28 | D12 => Pr D3 D48 | D13 => Pr D4 D4 | D14 => Pr D4 D24 | D15 => Pr D4 D44 | D16 => Pr D5 D0 | D17 => Pr D5 D20 | D18 => Pr D5 D40 | D19 => Pr D5 D60 | D20 => Pr D6 D16 | D21 => Pr D6 D36 | D22 => Pr D6 D56 | D23 => Pr D7 D12 | D24 => Pr D7 D32 | D25 => Pr D7 D52 | D26 => Pr D8 D8 | D27 => Pr D8 D28 | D28 => Pr D8 D48 | D29 => Pr D9 D4 | D30 => Pr D9 D24 | D31 => Pr D9 D44 | D32 => Pr D10 D0 | D33 => Pr D10 D20 | D34 => Pr D10 D40 | D35 => Pr D10 D60 | D36 => Pr D11 D16 | D37 => Pr D11 D36 | D38 => Pr D11 D56 | D39 => Pr D12 D12 | D40 => Pr D12 D32 | D41 => Pr D12 D52 | D42 => Pr D13 D8 | D43 => Pr D13 D28 | D44 => Pr D13 D48 | D45 => Pr D14 D4 | D46 => Pr D14 D24 | D47 => Pr D14 D44 | D48 => Pr D15 D0 | D49 => Pr D15 D20 | D50 => Pr D15 D40 | D51 => Pr D15 D60 | D52 => Pr D16 D16 | D53 => Pr D16 D36 | D54 => Pr D16 D56 | D55 => Pr D17 D12 | D56 => Pr D17 D32 | D57 => Pr D17 D52 | D58 => Pr D18 D8 | D59 => Pr D18 D28 | D60 => Pr D18 D48 | D61 => Pr D19 D4 | D62 => Pr D19 D24 | D63 => Pr D19 D44 end
| D21 => match b with D0 => Pr D0 D0 | D1 => Pr D0 D21 | D2 => Pr D0 D42 | D3 => Pr D0 D63 | D4 => Pr D1 D20 | D5 => Pr D1 D41 | D6 => Pr D1 D62 | D7 => Pr D2 D19 | D8 => Pr D2 D40 | D9 => Pr D2 D61 | D10 => Pr D3 D18 | D11 => Pr D3 D39 | D12 => Pr D3 D60 | D13 => Pr D4 D17 | D14 => Pr D4 D38 | D15 => Pr D4 D59 | D16 => Pr D5 D16 | D17 => Pr D5 D37 | D18 => Pr D5 D58 | D19 => Pr D6 D15 | D20 => Pr D6 D36 | D21 => Pr D6 D57 | D22 => Pr D7 D14 | D23 => Pr D7 D35 | D24 => Pr D7 D56 | D25 => Pr D8 D13 | D26 => Pr D8 D34 | D27 => Pr D8 D55 | D28 => Pr D9 D12 | D29 => Pr D9 D33 | D30 => Pr D9 D54 | D31 => Pr D10 D11 | D32 => Pr D10 D32 | D33 => Pr D10 D53 | D34 => Pr D11 D10 | D35 => Pr D11 D31 | D36 => Pr D11 D52 | D37 => Pr D12 D9 | D38 => Pr D12 D30 | D39 => Pr D12 D51 | D40 => Pr D13 D8 | D41 => Pr D13 D29 | D42 => Pr D13 D50 | D43 => Pr D14 D7 | D44 => Pr D14 D28 | D45 => Pr D14 D49 | D46 => Pr D15 D6 | D47 => Pr D15 D27 | D48 => Pr D15 D48 | D49 => Pr D16 D5 | D50 => Pr D16 D26 | D51 => Pr D16 D47 | D52 => Pr D17 D4 | D53 => Pr D17 D25 | D54 => Pr D17 D46 | D55 => Pr D18 D3 | D56 => Pr D18 D24 | D57 => Pr D18 D45 | D58 => Pr D19 D2 | D59 => Pr D19 D23 | D60 => Pr D19 D44 | D61 => Pr D20 D1 | D62 => Pr D20 D22 | D63 => Pr D20 D43 end
| D22 => match b with D0 => Pr D0 D0 | D1 => Pr D0 D22 | D2 => Pr D0 D44 | D3 => Pr D1 D2 | D4 => Pr D1 D24 | D5 => Pr D1 D46 | D6 => Pr D2 D4 | D7 => Pr D2 D26 | D8 => Pr D2 D48 | D9 => Pr D3 D6 | D10 => Pr D3 D28 | D11 => Pr D3 D50 | D12 => Pr D4 D8 | D13 => Pr D4 D30 | D14 => Pr D4 D52 | D15 => Pr D5 D10 | D16 => Pr D5 D32 | D17 => Pr D5 D54 | D18 => Pr D6 D12 | D19 => Pr D6 D34 | D20 => Pr D6 D56 | D21 => Pr D7 D14 | D22 => Pr D7 D36 | D23 => Pr D7 D58 | D24 => Pr D8 D16 | D25 => Pr D8 D38 | D26 => Pr D8 D60 | D27 => Pr D9 D18 | D28 => Pr D9 D40 | D29 => Pr D9 D62 | D30 => Pr D10 D20 | D31 => Pr D10 D42 | D32 => Pr D11 D0 | D33 => Pr D11 D22 | D34 => Pr D11 D44 | D35 => Pr D12 D2 | D36 => Pr D12 D24 | D37 => Pr D12 D46 | D38 => Pr D13 D4 | D39 => Pr D13 D26 | D40 => Pr D13 D48 | D41 => Pr D14 D6 | D42 => Pr D14 D28 | D43 => Pr D14 D50 | D44 => Pr D15 D8 | D45 => Pr D15 D30 | D46 => Pr D15 D52 | D47 => Pr D16 D10 | D48 => Pr D16 D32 | D49 => Pr D16 D54 | D50 => Pr D17 D12 | D51 => Pr D17 D34 | D52 => Pr D17 D56 | D53 => Pr D18 D14 | D54 => Pr D18 D36 | D55 => Pr D18 D58 | D56 => Pr D19 D16 | D57 => Pr D19 D38 | D58 => Pr D19 D60 | D59 => Pr D20 D18 | D60 => Pr D20 D40 | D61 => Pr D20 D62 | D62 => Pr D21 D20 | D63 => Pr D21 D42 end
| D23 => match b with D0 => Pr D0 D0 | D1 => Pr D0 D23 | D2 => Pr D0 D46 | D3 => Pr D1 D5 | D4 => Pr D1 D28 | D5 => Pr D1 D51 | D6 => Pr D2 D10 | D7 => Pr D2 D33 | D8 => Pr D2 D56 | D9 => Pr D3 D15 | D10 => Pr D3 D38 | D11 => Pr D3 D61 | D12 => Pr D4 D20 | D13 => Pr D4 D43 | D14 => Pr D5 D2 | D15 => Pr D5 D25 | D16 => Pr D5 D48 | D17 => Pr D6 D7 | D18 => Pr D6 D30 | D19 => Pr D6 D53 | D20 => Pr D7 D12 | D21 => Pr D7 D35 | D22 => Pr D7 D58 | D23 => Pr D8 D17 | D24 => Pr D8 D40 | D25 => Pr D8 D63 | D26 => Pr D9 D22 | D27 => Pr D9 D45 | D28 => Pr D10 D4 | D29 => Pr D10 D27 | D30 => Pr D10 D50 | D31 => Pr D11 D9 | D32 => Pr D11 D32 | D33 => Pr D11 D55 | D34 => Pr D12 D14 | D35 => Pr D12 D37 | D36 => Pr D12 D60 | D37 => Pr D13 D19 | D38 => Pr D13 D42 | D39 => Pr D14 D1 | D40 => Pr D14 D24 | D41 => Pr D14 D47 | D42 => Pr D15 D6 | D43 => Pr D15 D29 | D44 => Pr D15 D52 | D45 => Pr D16 D11 | D46 => Pr D16 D34 | D47 => Pr D16 D57 | D48 => Pr D17 D16 | D49 => Pr D17 D39 | D50 => Pr D17 D62 | D51 => Pr D18 D21 | D52 => Pr D18 D44 | D53 => Pr D19 D3 | D54 => Pr D19 D26 | D55 => Pr D19 D49 | D56 => Pr D20 D8 | D57 => Pr D20 D31 | D58 => Pr D20 D54 | D59 => Pr D21 D13 | D60 => Pr D21 D36 | D61 => Pr D21 D59 | D62 => Pr D22 D18 | D63 => Pr D22 D41 end
| D24 => match b with D0 => Pr D0 D0 | D1 => Pr D0 D24 | D2 => Pr D0 D48 | D3 => Pr D1 D8 | D4 => Pr D1 D32 | D5 => Pr D1 D56 | D6 => Pr D2 D16 | D7 => Pr D2 D40 | D8 => Pr D3 D0 | D9 => Pr D3 D24 | D10 => Pr D3 D48 | D11 => Pr D4 D8 | D12 => Pr D4 D32 | D13 => Pr D4 D56 | D14 => Pr D5 D16 | D15 => Pr D5 D40 | D16 => Pr D6 D0 | D17 => Pr D6 D24 | D18 => Pr D6 D48 | D19 => Pr D7 D8 | D20 => Pr D7 D32 | D21 => Pr D7 D56 | D22 => Pr D8 D16 | D23 => Pr D8 D40 | D24 => Pr D9 D0 | D25 => Pr D9 D24 | D26 => Pr D9 D48 | D27 => Pr D10 D8 | D28 => Pr D10 D32 | D29 => Pr D10 D56 | D30 => Pr D11 D16 | D31 => Pr D11 D40 | D32 => Pr D12 D0 | D33 => Pr D12 D24 | D34 => Pr D12 D48 | D35 => Pr D13 D8 | D36 => Pr D13 D32 | D37 => Pr D13 D56 | D38 => Pr D14 D16 | D39 => Pr D14 D40 | D40 => Pr D15 D0 | D41 => Pr D15 D24 | D42 => Pr D15 D48 | D43 => Pr D16 D8 | D44 => Pr D16 D32 | D45 => Pr D16 D56 | D46 => Pr D17 D16 | D47 => Pr D17 D40 | D48 => Pr D18 D0 | D49 => Pr D18 D24 | D50 => Pr D18 D48 | D51 => Pr D19 D8 | D52 => Pr D19 D32 | D53 => Pr D19 D56 | D54 => Pr D20 D16 | D55 => Pr D20 D40 | D56 => Pr D21 D0 | D57 => Pr D21 D24 | D58 => Pr D21 D48 | D59 => Pr D22 D8 | D60 => Pr D22 D32 | D61 => Pr D22 D56 | D62 => Pr D23 D16 | D63 => Pr D23 D40 end
| D25 => match b with D0 => Pr D0 D0 | D1 => Pr D0 D25 | D2 => Pr D0 D50 | D3 => Pr D1 D11 | D4 => Pr D1 D36 | D5 => Pr D1 D61 | D6 => Pr D2 D22 | D7 => Pr D2 D47 | D8 => Pr D3 D8 | D9 => Pr D3 D33 | D10 => Pr D3 D58 | D11 => Pr D4 D19 | D12 => Pr D4 D44 | D13 => Pr D5 D5 | D14 => Pr D5 D30 | D15 => Pr D5 D55 | D16 => Pr D6 D16 | D17 => Pr D6 D41 | D18 => Pr D7 D2 | D19 => Pr D7 D27 | D20 => Pr D7 D52 | D21 => Pr D8 D13 | D22 => Pr D8 D38 | D23 => Pr D8 D63 | D24 => Pr D9 D24 | D25 => Pr D9 D49 | D26 => Pr D10 D10 | D27 => Pr D10 D35 | D28 => Pr D10 D60 | D29 => Pr D11 D21 | D30 => Pr D11 D46 | D31 => Pr D12 D7 | D32 => Pr D12 D32 | D33 => Pr D12 D57 | D34 => Pr D13 D18 | D35 => Pr D13 D43 | D36 => Pr D14 D4 | D37 => Pr D14 D29 | D38 => Pr D14 D54 | D39 => Pr D15 D15 | D40 => Pr D15 D40 | D41 => Pr D16 D1 | D42 => Pr D16 D26 | D43 => Pr D16 D51 | D44 => Pr D17 D12 | D45 => Pr D17 D37 | D46 => Pr D17 D62 | D47 => Pr D18 D23 | D48 => Pr D18 D48 | D49 => Pr D19 D9 | D50 => Pr D19 D34 | D51 => Pr D19 D59 | D52 => Pr D20 D20 | D53 => Pr D20 D45 | D54 => Pr D21 D6 | D55 => Pr D21 D31 | D56 => Pr D21 D56 | D57 => Pr D22 D17 | D58 => Pr D22 D42 | D59 => Pr D23 D3 | D60 => Pr D23 D28 | D61 => Pr D23 D53 | D62 => Pr D24 D14 | D63 => Pr D24 D39 end
| D26 => match b with D0 => Pr D0 D0 | D1 => Pr D0 D26 | D2 => Pr D0 D52 | D3 => Pr D1 D14 | D4 => Pr D1 D40 | D5 => Pr D2 D2 | D6 => Pr D2 D28 | D7 => Pr D2 D54 | D8 => Pr D3 D16 | D9 => Pr D3 D42 | D10 => Pr D4 D4 | D11 => Pr D4 D30 | D12 => Pr D4 D56 | D13 => Pr D5 D18 | D14 => Pr D5 D44 | D15 => Pr D6 D6 | D16 => Pr D6 D32 | D17 => Pr D6 D58 | D18 => Pr D7 D20 | D19 => Pr D7 D46 | D20 => Pr D8 D8 | D21 => Pr D8 D34 | D22 => Pr D8 D60 | D23 => Pr D9 D22 | D24 => Pr D9 D48 | D25 => Pr D10 D10 | D26 => Pr D10 D36 | D27 => Pr D10 D62 | D28 => Pr D11 D24 | D29 => Pr D11 D50 | D30 => Pr D12 D12 | D31 => Pr D12 D38 | D32 => Pr D13 D0 | D33 => Pr D13 D26 | D34 => Pr D13 D52 | D35 => Pr D14 D14 | D36 => Pr D14 D40 | D37 => Pr D15 D2 | D38 => Pr D15 D28 | D39 => Pr D15 D54 | D40 => Pr D16 D16 | D41 => Pr D16 D42 | D42 => Pr D17 D4 | D43 => Pr D17 D30 | D44 => Pr D17 D56 | D45 => Pr D18 D18 | D46 => Pr D18 D44 | D47 => Pr D19 D6 | D48 => Pr D19 D32 | D49 => Pr D19 D58 | D50 => Pr D20 D20 | D51 => Pr D20 D46 | D52 => Pr D21 D8 | D53 => Pr D21 D34 | D54 => Pr D21 D60 | D55 => Pr D22 D22 | D56 => Pr D22 D48 | D57 => Pr D23 D10 | D58 => Pr D23 D36 | D59 => Pr D23 D62 | D60 => Pr D24 D24 | D61 => Pr D24 D50 | D62 => Pr D25 D12 | D63 => Pr D25 D38 end
| D27 => match b with D0 => Pr D0 D0 | D1 => Pr D0 D27 | D2 => Pr D0 D54 | D3 => Pr D1 D17 | D4 => Pr D1 D44 | D5 => Pr D2 D7 | D6 => Pr D2 D34 | D7 => Pr D2 D61 | D8 => Pr D3 D24 | D9 => Pr D3 D51 | D10 => Pr D4 D14 | D11 => Pr D4 D41 | D12 => Pr D5 D4 | D13 => Pr D5 D31 | D14 => Pr D5 D58 | D15 => Pr D6 D21 | D16 => Pr D6 D48 | D17 => Pr D7 D11 | D18 => Pr D7 D38 | D19 => Pr D8 D1 | D20 => Pr D8 D28 | D21 => Pr D8 D55 | D22 => Pr D9 D18 | D23 => Pr D9 D45 | D24 => Pr D10 D8 | D25 => Pr D10 D35 | D26 => Pr D10 D62 | D27 => Pr D11 D25 | D28 => Pr D11 D52 | D29 => Pr D12 D15 | D30 => Pr D12 D42 | D31 => Pr D13 D5 | D32 => Pr D13 D32 | D33 => Pr D13 D59 | D34 => Pr D14 D22 | D35 => Pr D14 D49 | D36 => Pr D15 D12 | D37 => Pr D15 D39 | D38 => Pr D16 D2 | D39 => Pr D16 D29 | D40 => Pr D16 D56 | D41 => Pr D17 D19 | D42 => Pr D17 D46 | D43 => Pr D18 D9 | D44 => Pr D18 D36 | D45 => Pr D18 D63 | D46 => Pr D19 D26 | D47 => Pr D19 D53 | D48 => Pr D20 D16 | D49 => Pr D20 D43 | D50 => Pr D21 D6 | D51 => Pr D21 D33 | D52 => Pr D21 D60 | D53 => Pr D22 D23 | D54 => Pr D22 D50 | D55 => Pr D23 D13 | D56 => Pr D23 D40 | D57 => Pr D24 D3 | D58 => Pr D24 D30 | D59 => Pr D24 D57 | D60 => Pr D25 D20 | D61 => Pr D25 D47 | D62 => Pr D26 D10 | D63 => Pr D26 D37 end
| D28 => match b with D0 => Pr D0 D0 | D1 => Pr D0 D28 | D2 => Pr D0 D56 | D3 => Pr D1 D20 | D4 => Pr D1 D48 | D5 => Pr D2 D12 | D6 => Pr D2 D40 | D7 => Pr D3 D4 | D8 => Pr D3 D32 | D9 => Pr D3 D60 | D10 => Pr D4 D24 | D11 => Pr D4 D52 | D12 => Pr D5 D16 | D13 => Pr D5 D44 | D14 => Pr D6 D8 | D15 => Pr D6 D36 | D16 => Pr D7 D0 | D17 => Pr D7 D28 | D18 => Pr D7 D56 | D19 => Pr D8 D20 | D20 => Pr D8 D48 | D21 => Pr D9 D12 | D22 => Pr D9 D40 | D23 => Pr D10 D4 | D24 => Pr D10 D32 | D25 => Pr D10 D60 | D26 => Pr D11 D24 | D27 => Pr D11 D52 | D28 => Pr D12 D16 | D29 => Pr D12 D44 | D30 => Pr D13 D8 | D31 => Pr D13 D36 | D32 => Pr D14 D0 | D33 => Pr D14 D28 | D34 => Pr D14 D56 | D35 => Pr D15 D20 | D36 => Pr D15 D48 | D37 => Pr D16 D12 | D38 => Pr D16 D40 | D39 => Pr D17 D4 | D40 => Pr D17 D32 | D41 => Pr D17 D60 | D42 => Pr D18 D24 | D43 => Pr D18 D52 | D44 => Pr D19 D16 | D45 => Pr D19 D44 | D46 => Pr D20 D8 | D47 => Pr D20 D36 | D48 => Pr D21 D0 | D49 => Pr D21 D28 | D50 => Pr D21 D56 | D51 => Pr D22 D20 | D52 => Pr D22 D48 | D53 => Pr D23 D12 | D54 => Pr D23 D40 | D55 => Pr D24 D4 | D56 => Pr D24 D32 | D57 => Pr D24 D60 | D58 => Pr D25 D24 | D59 => Pr D25 D52 | D60 => Pr D26 D16 | D61 => Pr D26 D44 | D62 => Pr D27 D8 | D63 => Pr D27 D36 end
| D29 => match b with D0 => Pr D0 D0 | D1 => Pr D0 D29 | D2 => Pr D0 D58 | D3 => Pr D1 D23 | D4 => Pr D1 D52 | D5 => Pr D2 D17 | D6 => Pr D2 D46 | D7 => Pr D3 D11 | D8 => Pr D3 D40 | D9 => Pr D4 D5 | D10 => Pr D4 D34 | D11 => Pr D4 D63 | D12 => Pr D5 D28 | D13 => Pr D5 D57 | D14 => Pr D6 D22 | D15 => Pr D6 D51 | D16 => Pr D7 D16 | D17 => Pr D7 D45 | D18 => Pr D8 D10 | D19 => Pr D8 D39 | D20 => Pr D9 D4 | D21 => Pr D9 D33 | D22 => Pr D9 D62 | D23 => Pr D10 D27 | D24 => Pr D10 D56 | D25 => Pr D11 D21 | D26 => Pr D11 D50 | D27 => Pr D12 D15 | D28 => Pr D12 D44 | D29 => Pr D13 D9 | D30 => Pr D13 D38 | D31 => Pr D14 D3 | D32 => Pr D14 D32 | D33 => Pr D14 D61 | D34 => Pr D15 D26 | D35 => Pr D15 D55 | D36 => Pr D16 D20 | D37 => Pr D16 D49 | D38 => Pr D17 D14 | D39 => Pr D17 D43 | D40 => Pr D18 D8 | D41 => Pr D18 D37 | D42 => Pr D19 D2 | D43 => Pr D19 D31 | D44 => Pr D19 D60 | D45 => Pr D20 D25 | D46 => Pr D20 D54 | D47 => Pr D21 D19 | D48 => Pr D21 D48 | D49 => Pr D22 D13 | D50 => Pr D22 D42 | D51 => Pr D23 D7 | D52 => Pr D23 D36 | D53 => Pr D24 D1 | D54 => Pr D24 D30 | D55 => Pr D24 D59 | D56 => Pr D25 D24 | D57 => Pr D25 D53 | D58 => Pr D26 D18 | D59 => Pr D26 D47 | D60 => Pr D27 D12 | D61 => Pr D27 D41 | D62 => Pr D28 D6 | D63 => Pr D28 D35 end
| D30 => match b with D0 => Pr D0 D0 | D1 => Pr D0 D30 | D2 => Pr D0 D60 | D3 => Pr D1 D26 | D4 => Pr D1 D56 | D5 => Pr D2 D22 | D6 => Pr D2 D52 | D7 => Pr D3 D18 | D8 => Pr D3 D48 | D9 => Pr D4 D14 | D10 => Pr D4 D44 | D11 => Pr D5 D10 | D12 => Pr D5 D40 | D13 => Pr D6 D6 | D14 => Pr D6 D36 | D15 => Pr D7 D2 | D16 => Pr D7 D32 | D17 => Pr D7 D62 | D18 => Pr D8 D28 | D19 => Pr D8 D58 | D20 => Pr D9 D24 | D21 => Pr D9 D54 | D22 => Pr D10 D20 | D23 => Pr D10 D50 | D24 => Pr D11 D16 | D25 => Pr D11 D46 | D26 => Pr D12 D12 | D27 => Pr D12 D42 | D28 => Pr D13 D8 | D29 => Pr D13 D38 | D30 => Pr D14 D4 | D31 => Pr D14 D34 | D32 => Pr D15 D0 | D33 => Pr D15 D30 | D34 => Pr D15 D60 | D35 => Pr D16 D26 | D36 => Pr D16 D56 | D37 => Pr D17 D22 | D38 => Pr D17 D52 | D39 => Pr D18 D18 | D40 => Pr D18 D48 | D41 => Pr D19 D14 | D42 => Pr D19 D44 | D43 => Pr D20 D10 | D44 => Pr D20 D40 | D45 => Pr D21 D6 | D46 => Pr D21 D36 | D47 => Pr D22 D2 | D48 => Pr D22 D32 | D49 => Pr D22 D62 | D50 => Pr D23 D28 | D51 => Pr D23 D58 | D52 => Pr D24 D24 | D53 => Pr D24 D54 | D54 => Pr D25 D20 | D55 => Pr D25 D50 | D56 => Pr D26 D16 | D57 => Pr D26 D46 | D58 => Pr D27 D12 | D59 => Pr D27 D42 | D60 => Pr D28 D8 | D61 => Pr D28 D38 | D62 => Pr D29 D4 | D63 => Pr D29 D34 end
| D31 => match b with D0 => Pr D0 D0 | D1 => Pr D0 D31 | D2 => Pr D0 D62 | D3 => Pr D1 D29 | D4 => Pr D1 D60 | D5 => Pr D2 D27 | D6 => Pr D2 D58 | D7 => Pr D3 D25 | D8 => Pr D3 D56 | D9 => Pr D4 D23 | D10 => Pr D4 D54 | D11 => Pr D5 D21 | D12 => Pr D5 D52 | D13 => Pr D6 D19 | D14 => Pr D6 D50 | D15 => Pr D7 D17 | D16 => Pr D7 D48 | D17 => Pr D8 D15 | D18 => Pr D8 D46 | D19 => Pr D9 D13 | D20 => Pr D9 D44 | D21 => Pr D10 D11 | D22 => Pr D10 D42 | D23 => Pr D11 D9 | D24 => Pr D11 D40 | D25 => Pr D12 D7 | D26 => Pr D12 D38 | D27 => Pr D13 D5 | D28 => Pr D13 D36 | D29 => Pr D14 D3 | D30 => Pr D14 D34 | D31 => Pr D15 D1 | D32 => Pr D15 D32 | D33 => Pr D15 D63 | D34 => Pr D16 D30 | D35 => Pr D16 D61 | D36 => Pr D17 D28 | D37 => Pr D17 D59 | D38 => Pr D18 D26 | D39 => Pr D18 D57 | D40 => Pr D19 D24 | D41 => Pr D19 D55 | D42 => Pr D20 D22 | D43 => Pr D20 D53 | D44 => Pr D21 D20 | D45 => Pr D21 D51 | D46 => Pr D22 D18 | D47 => Pr D22 D49 | D48 => Pr D23 D16 | D49 => Pr D23 D47 | D50 => Pr D24 D14 | D51 => Pr D24 D45 | D52 => Pr D25 D12 | D53 => Pr D25 D43 | D54 => Pr D26 D10 | D55 => Pr D26 D41 | D56 => Pr D27 D8 | D57 => Pr D27 D39 | D58 => Pr D28 D6 | D59 => Pr D28 D37 | D60 => Pr D29 D4 | D61 => Pr D29 D35 | D62 => Pr D30 D2 | D63 => Pr D30 D33 end
| D32 => match b with D0 => Pr D0 D0 | D1 => Pr D0 D32 | D2 => Pr D1 D0 | D3 => Pr D1 D32 | D4 => Pr D2 D0 | D5 => Pr D2 D32 | D6 => Pr D3 D0 | D7 => Pr D3 D32 | D8 => Pr D4 D0 | D9 => Pr D4 D32 | D10 => Pr D5 D0 | D11 => Pr D5 D32 | D12 => Pr D6 D0 | D13 => Pr D6 D32 | D14 => Pr D7 D0 | D15 => Pr D7 D32 | D16 => Pr D8 D0 | D17 => Pr D8 D32 | D18 => Pr D9 D0 | D19 => Pr D9 D32 | D20 => Pr D10 D0 | D21 => Pr D10 D32 | D22 => Pr D11 D0 | D23 => Pr D11 D32 | D24 => Pr D12 D0 | D25 => Pr D12 D32 | D26 => Pr D13 D0 | D27 => Pr D13 D32 | D28 => Pr D14 D0 | D29 => Pr D14 D32 | D30 => Pr D15 D0 | D31 => Pr D15 D32 | D32 => Pr D16 D0 | D33 => Pr D16 D32 | D34 => Pr D17 D0 | D35 => Pr D17 D32 | D36 => Pr D18 D0 | D37 => Pr D18 D32 | D38 => Pr D19 D0 | D39 => Pr D19 D32 | D40 => Pr D20 D0 | D41 => Pr D20 D32 | D42 => Pr D21 D0 | D43 => Pr D21 D32 | D44 => Pr D22 D0 | D45 => Pr D22 D32 | D46 => Pr D23 D0 | D47 => Pr D23 D32 | D48 => Pr D24 D0 | D49 => Pr D24 D32 | D50 => Pr D25 D0 | D51 => Pr D25 D32 | D52 => Pr D26 D0 | D53 => Pr D26 D32 | D54 => Pr D27 D0 | D55 => Pr D27 D32 | D56 => Pr D28 D0 | D57 => Pr D28 D32 | D58 => Pr D29 D0 | D59 => Pr D29 D32 | D60 => Pr D30 D0 | D61 => Pr D30 D32 | D62 => Pr D31 D0 | D63 => Pr D31 D32 end
| D33 => match b with D0 => Pr D0 D0 | D1 => Pr D0 D33 | D2 => Pr D1 D2 | D3 => Pr D1 D35 | D4 => Pr D2 D4 | D5 => Pr D2 D37 | D6 => Pr D3 D6 | D7 => Pr D3 D39 | D8 => Pr D4 D8 | D9 => Pr D4 D41 | D10 => Pr D5 D10 | D11 => Pr D5 D43 | D12 => Pr D6 D12 | D13 => Pr D6 D45 | D14 => Pr D7 D14 | D15 => Pr D7 D47 | D16 => Pr D8 D16 | D17 => Pr D8 D49 | D18 => Pr D9 D18 | D19 => Pr D9 D51 | D20 => Pr D10 D20 | D21 => Pr D10 D53 | D22 => Pr D11 D22 | D23 => Pr D11 D55 | D24 => Pr D12 D24 | D25 => Pr D12 D57 | D26 => Pr D13 D26 | D27 => Pr D13 D59 | D28 => Pr D14 D28 | D29 => Pr D14 D61 | D30 => Pr D15 D30 | D31 => Pr D15 D63 | D32 => Pr D16 D32 | D33 => Pr D17 D1 | D34 => Pr D17 D34 | D35 => Pr D18 D3 | D36 => Pr D18 D36 | D37 => Pr D19 D5 | D38 => Pr D19 D38 | D39 => Pr D20 D7 | D40 => Pr D20 D40 | D41 => Pr D21 D9 | D42 => Pr D21 D42 | D43 => Pr D22 D11 | D44 => Pr D22 D44 | D45 => Pr D23 D13 | D46 => Pr D23 D46 | D47 => Pr D24 D15 | D48 => Pr D24 D48 | D49 => Pr D25 D17 | D50 => Pr D25 D50 | D51 => Pr D26 D19 | D52 => Pr D26 D52 | D53 => Pr D27 D21 | D54 => Pr D27 D54 | D55 => Pr D28 D23 | D56 => Pr D28 D56 | D57 => Pr D29 D25 | D58 => Pr D29 D58 | D59 => Pr D30 D27 | D60 => Pr D30 D60 | D61 => Pr D31 D29 | D62 => Pr D31 D62 | D63 => Pr D32 D31 end
| D34 => match b with D0 => Pr D0 D0 | D1 => Pr D0 D34 | D2 => Pr D1 D4 | D3 => Pr D1 D38 | D4 => Pr D2 D8 | D5 => Pr D2 D42 | D6 => Pr D3 D12 | D7 => Pr D3 D46 | D8 => Pr D4 D16 | D9 => Pr D4 D50 | D10 => Pr D5 D20 | D11 => Pr D5 D54 | D12 => Pr D6 D24 | D13 => Pr D6 D58 | D14 => Pr D7 D28 | D15 => Pr D7 D62 | D16 => Pr D8 D32 | D17 => Pr D9 D2 | D18 => Pr D9 D36 | D19 => Pr D10 D6 | D20 => Pr D10 D40 | D21 => Pr D11 D10 | D22 => Pr D11 D44 | D23 => Pr D12 D14 | D24 => Pr D12 D48 | D25 => Pr D13 D18 | D26 => Pr D13 D52 | D27 => Pr D14 D22 | D28 => Pr D14 D56 | D29 => Pr D15 D26 | D30 => Pr D15 D60 | D31 => Pr D16 D30 | D32 => Pr D17 D0 | D33 => Pr D17 D34 | D34 => Pr D18 D4 | D35 => Pr D18 D38 | D36 => Pr D19 D8 | D37 => Pr D19 D42 | D38 => Pr D20 D12 | D39 => Pr D20 D46 | D40 => Pr D21 D16 | D41 => Pr D21 D50 | D42 => Pr D22 D20 | D43 => Pr D22 D54 | D44 => Pr D23 D24 | D45 => Pr D23 D58 | D46 => Pr D24 D28 | D47 => Pr D24 D62 | D48 => Pr D25 D32 | D49 => Pr D26 D2 | D50 => Pr D26 D36 | D51 => Pr D27 D6 | D52 => Pr D27 D40 | D53 => Pr D28 D10 | D54 => Pr D28 D44 | D55 => Pr D29 D14 | D56 => Pr D29 D48 | D57 => Pr D30 D18 | D58 => Pr D30 D52 | D59 => Pr D31 D22 | D60 => Pr D31 D56 | D61 => Pr D32 D26 | D62 => Pr D32 D60 | D63 => Pr D33 D30 end
| D35 => match b with D0 => Pr D0 D0 | D1 => Pr D0 D35 | D2 => Pr D1 D6 | D3 => Pr D1 D41 | D4 => Pr D2 D12 | D5 => Pr D2 D47 | D6 => Pr D3 D18 | D7 => Pr D3 D53 | D8 => Pr D4 D24 | D9 => Pr D4 D59 | D10 => Pr D5 D30 | D11 => Pr D6 D1 | D12 => Pr D6 D36 | D13 => Pr D7 D7 | D14 => Pr D7 D42 | D15 => Pr D8 D13 | D16 => Pr D8 D48 | D17 => Pr D9 D19 | D18 => Pr D9 D54 | D19 => Pr D10 D25 | D20 => Pr D10 D60 | D21 => Pr D11 D31 | D22 => Pr D12 D2 | D23 => Pr D12 D37 | D24 => Pr D13 D8 | D25 => Pr D13 D43 | D26 => Pr D14 D14 | D27 => Pr D14 D49 | D28 => Pr D15 D20 | D29 => Pr D15 D55 | D30 => Pr D16 D26 | D31 => Pr D16 D61 | D32 => Pr D17 D32 | D33 => Pr D18 D3 | D34 => Pr D18 D38 | D35 => Pr D19 D9 | D36 => Pr D19 D44 | D37 => Pr D20 D15 | D38 => Pr D20 D50 | D39 => Pr D21 D21 | D40 => Pr D21 D56 | D41 => Pr D22 D27 | D42 => Pr D22 D62 | D43 => Pr D23 D33 | D44 => Pr D24 D4 | D45 => Pr D24 D39 | D46 => Pr D25 D10 | D47 => Pr D25 D45 | D48 => Pr D26 D16 | D49 => Pr D26 D51 | D50 => Pr D27 D22 | D51 => Pr D27 D57 | D52 => Pr D28 D28 | D53 => Pr D28 D63 | D54 => Pr D29 D34 | D55 => Pr D30 D5 | D56 => Pr D30 D40 | D57 => Pr D31 D11 | D58 => Pr D31 D46 | D59 => Pr D32 D17 | D60 => Pr D32 D52 | D61 => Pr D33 D23 | D62 => Pr D33 D58 | D63 => Pr D34 D29 end
| D36 => match b with D0 => Pr D0 D0 | D1 => Pr D0 D36 | D2 => Pr D1 D8 | D3 => Pr D1 D44 | D4 => Pr D2 D16 | D5 => Pr D2 D52 | D6 => Pr D3 D24 | D7 => Pr D3 D60 | D8 => Pr D4 D32 | D9 => Pr D5 D4 | D10 => Pr D5 D40 | D11 => Pr D6 D12 | D12 => Pr D6 D48 | D13 => Pr D7 D20 | D14 => Pr D7 D56 | D15 => Pr D8 D28 | D16 => Pr D9 D0 | D17 => Pr D9 D36 | D18 => Pr D10 D8 | D19 => Pr D10 D44 | D20 => Pr D11 D16 | D21 => Pr D11 D52 | D22 => Pr D12 D24 | D23 => Pr D12 D60 | D24 => Pr D13 D32 | D25 => Pr D14 D4 | D26 => Pr D14 D40 | D27 => Pr D15 D12 | D28 => Pr D15 D48 | D29 => Pr D16 D20 | D30 => Pr D16 D56 | D31 => Pr D17 D28 | D32 => Pr D18 D0 | D33 => Pr D18 D36 | D34 => Pr D19 D8 | D35 => Pr D19 D44 | D36 => Pr D20 D16 | D37 => Pr D20 D52 | D38 => Pr D21 D24 | D39 => Pr D21 D60 | D40 => Pr D22 D32 | D41 => Pr D23 D4 | D42 => Pr D23 D40 | D43 => Pr D24 D12 | D44 => Pr D24 D48 | D45 => Pr D25 D20 | D46 => Pr D25 D56 | D47 => Pr D26 D28 | D48 => Pr D27 D0 | D49 => Pr D27 D36 | D50 => Pr D28 D8 | D51 => Pr D28 D44 | D52 => Pr D29 D16 | D53 => Pr D29 D52 | D54 => Pr D30 D24 | D55 => Pr D30 D60 | D56 => Pr D31 D32 | D57 => Pr D32 D4 | D58 => Pr D32 D40 | D59 => Pr D33 D12 | D60 => Pr D33 D48 | D61 => Pr D34 D20 | D62 => Pr D34 D56 | D63 => Pr D35 D28 end
| D37 => match b with D0 => Pr D0 D0 | D1 => Pr D0 D37 | D2 => Pr D1 D10 | D3 => Pr D1 D47 | D4 => Pr D2 D20 | D5 => Pr D2 D57 | D6 => Pr D3 D30 | D7 => Pr D4 D3 | D8 => Pr D4 D40 | D9 => Pr D5 D13 | D10 => Pr D5 D50 | D11 => Pr D6 D23 | D12 => Pr D6 D60 | D13 => Pr D7 D33 | D14 => Pr D8 D6 | D15 => Pr D8 D43 | D16 => Pr D9 D16 | D17 => Pr D9 D53 | D18 => Pr D10 D26 | D19 => Pr D10 D63 | D20 => Pr D11 D36 | D21 => Pr D12 D9 | D22 => Pr D12 D46 | D23 => Pr D13 D19 | D24 => Pr D13 D56 | D25 => Pr D14 D29 | D26 => Pr D15 D2 | D27 => Pr D15 D39 | D28 => Pr D16 D12 | D29 => Pr D16 D49 | D30 => Pr D17 D22 | D31 => Pr D17 D59 | D32 => Pr D18 D32 | D33 => Pr D19 D5 | D34 => Pr D19 D42 | D35 => Pr D20 D15 | D36 => Pr D20 D52 | D37 => Pr D21 D25 | D38 => Pr D21 D62 | D39 => Pr D22 D35 | D40 => Pr D23 D8 | D41 => Pr D23 D45 | D42 => Pr D24 D18 | D43 => Pr D24 D55 | D44 => Pr D25 D28 | D45 => Pr D26 D1 | D46 => Pr D26 D38 | D47 => Pr D27 D11 | D48 => Pr D27 D48 | D49 => Pr D28 D21 | D50 => Pr D28 D58 | D51 => Pr D29 D31 | D52 => Pr D30 D4 | D53 => Pr D30 D41 | D54 => Pr D31 D14 | D55 => Pr D31 D51 | D56 => Pr D32 D24 | D57 => Pr D32 D61 | D58 => Pr D33 D34 | D59 => Pr D34 D7 | D60 => Pr D34 D44 | D61 => Pr D35 D17 | D62 => Pr D35 D54 | D63 => Pr D36 D27 end
| D38 => match b with D0 => Pr D0 D0 | D1 => Pr D0 D38 | D2 => Pr D1 D12 | D3 => Pr D1 D50 | D4 => Pr D2 D24 | D5 => Pr D2 D62 | D6 => Pr D3 D36 | D7 => Pr D4 D10 | D8 => Pr D4 D48 | D9 => Pr D5 D22 | D10 => Pr D5 D60 | D11 => Pr D6 D34 | D12 => Pr D7 D8 | D13 => Pr D7 D46 | D14 => Pr D8 D20 | D15 => Pr D8 D58 | D16 => Pr D9 D32 | D17 => Pr D10 D6 | D18 => Pr D10 D44 | D19 => Pr D11 D18 | D20 => Pr D11 D56 | D21 => Pr D12 D30 | D22 => Pr D13 D4 | D23 => Pr D13 D42 | D24 => Pr D14 D16 | D25 => Pr D14 D54 | D26 => Pr D15 D28 | D27 => Pr D16 D2 | D28 => Pr D16 D40 | D29 => Pr D17 D14 | D30 => Pr D17 D52 | D31 => Pr D18 D26 | D32 => Pr D19 D0 | D33 => Pr D19 D38 | D34 => Pr D20 D12 | D35 => Pr D20 D50 | D36 => Pr D21 D24 | D37 => Pr D21 D62 | D38 => Pr D22 D36 | D39 => Pr D23 D10 | D40 => Pr D23 D48 | D41 => Pr D24 D22 | D42 => Pr D24 D60 | D43 => Pr D25 D34 | D44 => Pr D26 D8 | D45 => Pr D26 D46 | D46 => Pr D27 D20 | D47 => Pr D27 D58 | D48 => Pr D28 D32 | D49 => Pr D29 D6 | D50 => Pr D29 D44 | D51 => Pr D30 D18 | D52 => Pr D30 D56 | D53 => Pr D31 D30 | D54 => Pr D32 D4 | D55 => Pr D32 D42 | D56 => Pr D33 D16 | D57 => Pr D33 D54 | D58 => Pr D34 D28 | D59 => Pr D35 D2 | D60 => Pr D35 D40 | D61 => Pr D36 D14 | D62 => Pr D36 D52 | D63 => Pr D37 D26 end
| D39 => match b with D0 => Pr D0 D0 | D1 => Pr D0 D39 | D2 => Pr D1 D14 | D3 => Pr D1 D53 | D4 => Pr D2 D28 | D5 => Pr D3 D3 | D6 => Pr D3 D42 | D7 => Pr D4 D17 | D8 => Pr D4 D56 | D9 => Pr D5 D31 | D10 => Pr D6 D6 | D11 => Pr D6 D45 | D12 => Pr D7 D20 | D13 => Pr D7 D59 | D14 => Pr D8 D34 | D15 => Pr D9 D9 | D16 => Pr D9 D48 | D17 => Pr D10 D23 | D18 => Pr D10 D62 | D19 => Pr D11 D37 | D20 => Pr D12 D12 | D21 => Pr D12 D51 | D22 => Pr D13 D26 | D23 => Pr D14 D1 | D24 => Pr D14 D40 | D25 => Pr D15 D15 | D26 => Pr D15 D54 | D27 => Pr D16 D29 | D28 => Pr D17 D4 | D29 => Pr D17 D43 | D30 => Pr D18 D18 | D31 => Pr D18 D57 | D32 => Pr D19 D32 | D33 => Pr D20 D7 | D34 => Pr D20 D46 | D35 => Pr D21 D21 | D36 => Pr D21 D60 | D37 => Pr D22 D35 | D38 => Pr D23 D10 | D39 => Pr D23 D49 | D40 => Pr D24 D24 | D41 => Pr D24 D63 | D42 => Pr D25 D38 | D43 => Pr D26 D13 | D44 => Pr D26 D52 | D45 => Pr D27 D27 | D46 => Pr D28 D2 | D47 => Pr D28 D41 | D48 => Pr D29 D16 | D49 => Pr D29 D55 | D50 => Pr D30 D30 | D51 => Pr D31 D5 | D52 => Pr D31 D44 | D53 => Pr D32 D19 | D54 => Pr D32 D58 | D55 => Pr D33 D33 | D56 => Pr D34 D8 | D57 => Pr D34 D47 | D58 => Pr D35 D22 | D59 => Pr D35 D61 | D60 => Pr D36 D36 | D61 => Pr D37 D11 | D62 => Pr D37 D50 | D63 => Pr D38 D25 end
| D40 => match b with D0 => Pr D0 D0 | D1 => Pr D0 D40 | D2 => Pr D1 D16 | D3 => Pr D1 D56 | D4 => Pr D2 D32 | D5 => Pr D3 D8 | D6 => Pr D3 D48 | D7 => Pr D4 D24 | D8 => Pr D5 D0 | D9 => Pr D5 D40 | D10 => Pr D6 D16 | D11 => Pr D6 D56 | D12 => Pr D7 D32 | D13 => Pr D8 D8 | D14 => Pr D8 D48 | D15 => Pr D9 D24 | D16 => Pr D10 D0 | D17 => Pr D10 D40 | D18 => Pr D11 D16 | D19 => Pr D11 D56 | D20 => Pr D12 D32 | D21 => Pr D13 D8 | D22 => Pr D13 D48 | D23 => Pr D14 D24 | D24 => Pr D15 D0 | D25 => Pr D15 D40 | D26 => Pr D16 D16 | D27 => Pr D16 D56 | D28 => Pr D17 D32 | D29 => Pr D18 D8 | D30 => Pr D18 D48 | D31 => Pr D19 D24 | D32 => Pr D20 D0 | D33 => Pr D20 D40 | D34 => Pr D21 D16 | D35 => Pr D21 D56 | D36 => Pr D22 D32 | D37 => Pr D23 D8 | D38 => Pr D23 D48 | D39 => Pr D24 D24 | D40 => Pr D25 D0 | D41 => Pr D25 D40 | D42 => Pr D26 D16 | D43 => Pr D26 D56 | D44 => Pr D27 D32 | D45 => Pr D28 D8 | D46 => Pr D28 D48 | D47 => Pr D29 D24 | D48 => Pr D30 D0 | D49 => Pr D30 D40 | D50 => Pr D31 D16 | D51 => Pr D31 D56 | D52 => Pr D32 D32 | D53 => Pr D33 D8 | D54 => Pr D33 D48 | D55 => Pr D34 D24 | D56 => Pr D35 D0 | D57 => Pr D35 D40 | D58 => Pr D36 D16 | D59 => Pr D36 D56 | D60 => Pr D37 D32 | D61 => Pr D38 D8 | D62 => Pr D38 D48 | D63 => Pr D39 D24 end
| D41 => match b with D0 => Pr D0 D0 | D1 => Pr D0 D41 | D2 => Pr D1 D18 | D3 => Pr D1 D59 | D4 => Pr D2 D36 | D5 => Pr D3 D13 | D6 => Pr D3 D54 | D7 => Pr D4 D31 | D8 => Pr D5 D8 | D9 => Pr D5 D49 | D10 => Pr D6 D26 | D11 => Pr D7 D3 | D12 => Pr D7 D44 | D13 => Pr D8 D21 | D14 => Pr D8 D62 | D15 => Pr D9 D39 | D16 => Pr D10 D16 | D17 => Pr D10 D57 | D18 => Pr D11 D34 | D19 => Pr D12 D11 | D20 => Pr D12 D52 | D21 => Pr D13 D29 | D22 => Pr D14 D6 | D23 => Pr D14 D47 | D24 => Pr D15 D24 | D25 => Pr D16 D1 | D26 => Pr D16 D42 | D27 => Pr D17 D19 | D28 => Pr D17 D60 | D29 => Pr D18 D37 | D30 => Pr D19 D14 | D31 => Pr D19 D55 | D32 => Pr D20 D32 | D33 => Pr D21 D9 | D34 => Pr D21 D50 | D35 => Pr D22 D27 | D36 => Pr D23 D4 | D37 => Pr D23 D45 | D38 => Pr D24 D22 | D39 => Pr D24 D63 | D40 => Pr D25 D40 | D41 => Pr D26 D17 | D42 => Pr D26 D58 | D43 => Pr D27 D35 | D44 => Pr D28 D12 | D45 => Pr D28 D53 | D46 => Pr D29 D30 | D47 => Pr D30 D7 | D48 => Pr D30 D48 | D49 => Pr D31 D25 | D50 => Pr D32 D2 | D51 => Pr D32 D43 | D52 => Pr D33 D20 | D53 => Pr D33 D61 | D54 => Pr D34 D38 | D55 => Pr D35 D15 | D56 => Pr D35 D56 | D57 => Pr D36 D33 | D58 => Pr D37 D10 | D59 => Pr D37 D51 | D60 => Pr D38 D28 | D61 => Pr D39 D5 | D62 => Pr D39 D46 | D63 => Pr D40 D23 end
| D42 => match b with D0 => Pr D0 D0 | D1 => Pr D0 D42 | D2 => Pr D1 D20 | D3 => Pr D1 D62 | D4 => Pr D2 D40 | D5 => Pr D3 D18 | D6 => Pr D3 D60 | D7 => Pr D4 D38 | D8 => Pr D5 D16 | D9 => Pr D5 D58 | D10 => Pr D6 D36 | D11 => Pr D7 D14 | D12 => Pr D7 D56 | D13 => Pr D8 D34 | D14 => Pr D9 D12 | D15 => Pr D9 D54 | D16 => Pr D10 D32 | D17 => Pr D11 D10 | D18 => Pr D11 D52 | D19 => Pr D12 D30 | D20 => Pr D13 D8 | D21 => Pr D13 D50 | D22 => Pr D14 D28 | D23 => Pr D15 D6 | D24 => Pr D15 D48 | D25 => Pr D16 D26 | D26 => Pr D17 D4 | D27 => Pr D17 D46 | D28 => Pr D18 D24 | D29 => Pr D19 D2 | D30 => Pr D19 D44 | D31 => Pr D20 D22 | D32 => Pr D21 D0 | D33 => Pr D21 D42 | D34 => Pr D22 D20 | D35 => Pr D22 D62 | D36 => Pr D23 D40 | D37 => Pr D24 D18 | D38 => Pr D24 D60 | D39 => Pr D25 D38 | D40 => Pr D26 D16 | D41 => Pr D26 D58 | D42 => Pr D27 D36 | D43 => Pr D28 D14 | D44 => Pr D28 D56 | D45 => Pr D29 D34 | D46 => Pr D30 D12 | D47 => Pr D30 D54 | D48 => Pr D31 D32 | D49 => Pr D32 D10 | D50 => Pr D32 D52 | D51 => Pr D33 D30 | D52 => Pr D34 D8 | D53 => Pr D34 D50 | D54 => Pr D35 D28 | D55 => Pr D36 D6 | D56 => Pr D36 D48 | D57 => Pr D37 D26 | D58 => Pr D38 D4 | D59 => Pr D38 D46 | D60 => Pr D39 D24 | D61 => Pr D40 D2 | D62 => Pr D40 D44 | D63 => Pr D41 D22 end
| D43 => match b with D0 => Pr D0 D0 | D1 => Pr D0 D43 | D2 => Pr D1 D22 | D3 => Pr D2 D1 | D4 => Pr D2 D44 | D5 => Pr D3 D23 | D6 => Pr D4 D2 | D7 => Pr D4 D45 | D8 => Pr D5 D24 | D9 => Pr D6 D3 | D10 => Pr D6 D46 | D11 => Pr D7 D25 | D12 => Pr D8 D4 | D13 => Pr D8 D47 | D14 => Pr D9 D26 | D15 => Pr D10 D5 | D16 => Pr D10 D48 | D17 => Pr D11 D27 | D18 => Pr D12 D6 | D19 => Pr D12 D49 | D20 => Pr D13 D28 | D21 => Pr D14 D7 | D22 => Pr D14 D50 | D23 => Pr D15 D29 | D24 => Pr D16 D8 | D25 => Pr D16 D51 | D26 => Pr D17 D30 | D27 => Pr D18 D9 | D28 => Pr D18 D52 | D29 => Pr D19 D31 | D30 => Pr D20 D10 | D31 => Pr D20 D53 | D32 => Pr D21 D32 | D33 => Pr D22 D11 | D34 => Pr D22 D54 | D35 => Pr D23 D33 | D36 => Pr D24 D12 | D37 => Pr D24 D55 | D38 => Pr D25 D34 | D39 => Pr D26 D13 | D40 => Pr D26 D56 | D41 => Pr D27 D35 | D42 => Pr D28 D14 | D43 => Pr D28 D57 | D44 => Pr D29 D36 | D45 => Pr D30 D15 | D46 => Pr D30 D58 | D47 => Pr D31 D37 | D48 => Pr D32 D16 | D49 => Pr D32 D59 | D50 => Pr D33 D38 | D51 => Pr D34 D17 | D52 => Pr D34 D60 | D53 => Pr D35 D39 | D54 => Pr D36 D18 | D55 => Pr D36 D61 | D56 => Pr D37 D40 | D57 => Pr D38 D19 | D58 => Pr D38 D62 | D59 => Pr D39 D41 | D60 => Pr D40 D20 | D61 => Pr D40 D63 | D62 => Pr D41 D42 | D63 => Pr D42 D21 end
| D44 => match b with D0 => Pr D0 D0 | D1 => Pr D0 D44 | D2 => Pr D1 D24 | D3 => Pr D2 D4 | D4 => Pr D2 D48 | D5 => Pr D3 D28 | D6 => Pr D4 D8 | D7 => Pr D4 D52 | D8 => Pr D5 D32 | D9 => Pr D6 D12 | D10 => Pr D6 D56 | D11 => Pr D7 D36 | D12 => Pr D8 D16 | D13 => Pr D8 D60 | D14 => Pr D9 D40 | D15 => Pr D10 D20 | D16 => Pr D11 D0 | D17 => Pr D11 D44 | D18 => Pr D12 D24 | D19 => Pr D13 D4 | D20 => Pr D13 D48 | D21 => Pr D14 D28 | D22 => Pr D15 D8 | D23 => Pr D15 D52 | D24 => Pr D16 D32 | D25 => Pr D17 D12 | D26 => Pr D17 D56 | D27 => Pr D18 D36 | D28 => Pr D19 D16 | D29 => Pr D19 D60 | D30 => Pr D20 D40 | D31 => Pr D21 D20 | D32 => Pr D22 D0 | D33 => Pr D22 D44 | D34 => Pr D23 D24 | D35 => Pr D24 D4 | D36 => Pr D24 D48 | D37 => Pr D25 D28 | D38 => Pr D26 D8 | D39 => Pr D26 D52 | D40 => Pr D27 D32 | D41 => Pr D28 D12 | D42 => Pr D28 D56 | D43 => Pr D29 D36 | D44 => Pr D30 D16 | D45 => Pr D30 D60 | D46 => Pr D31 D40 | D47 => Pr D32 D20 | D48 => Pr D33 D0 | D49 => Pr D33 D44 | D50 => Pr D34 D24 | D51 => Pr D35 D4 | D52 => Pr D35 D48 | D53 => Pr D36 D28 | D54 => Pr D37 D8 | D55 => Pr D37 D52 | D56 => Pr D38 D32 | D57 => Pr D39 D12 | D58 => Pr D39 D56 | D59 => Pr D40 D36 | D60 => Pr D41 D16 | D61 => Pr D41 D60 | D62 => Pr D42 D40 | D63 => Pr D43 D20 end
| D45 => match b with D0 => Pr D0 D0 | D1 => Pr D0 D45 | D2 => Pr D1 D26 | D3 => Pr D2 D7 | D4 => Pr D2 D52 | D5 => Pr D3 D33 | D6 => Pr D4 D14 | D7 => Pr D4 D59 | D8 => Pr D5 D40 | D9 => Pr D6 D21 | D10 => Pr D7 D2 | D11 => Pr D7 D47 | D12 => Pr D8 D28 | D13 => Pr D9 D9 | D14 => Pr D9 D54 | D15 => Pr D10 D35 | D16 => Pr D11 D16 | D17 => Pr D11 D61 | D18 => Pr D12 D42 | D19 => Pr D13 D23 | D20 => Pr D14 D4 | D21 => Pr D14 D49 | D22 => Pr D15 D30 | D23 => Pr D16 D11 | D24 => Pr D16 D56 | D25 => Pr D17 D37 | D26 => Pr D18 D18 | D27 => Pr D18 D63 | D28 => Pr D19 D44 | D29 => Pr D20 D25 | D30 => Pr D21 D6 | D31 => Pr D21 D51 | D32 => Pr D22 D32 | D33 => Pr D23 D13 | D34 => Pr D23 D58 | D35 => Pr D24 D39 | D36 => Pr D25 D20 | D37 => Pr D26 D1 | D38 => Pr D26 D46 | D39 => Pr D27 D27 | D40 => Pr D28 D8 | D41 => Pr D28 D53 | D42 => Pr D29 D34 | D43 => Pr D30 D15 | D44 => Pr D30 D60 | D45 => Pr D31 D41 | D46 => Pr D32 D22 | D47 => Pr D33 D3 | D48 => Pr D33 D48 | D49 => Pr D34 D29 | D50 => Pr D35 D10 | D51 => Pr D35 D55 | D52 => Pr D36 D36 | D53 => Pr D37 D17 | D54 => Pr D37 D62 | D55 => Pr D38 D43 | D56 => Pr D39 D24 | D57 => Pr D40 D5 | D58 => Pr D40 D50 | D59 => Pr D41 D31 | D60 => Pr D42 D12 | D61 => Pr D42 D57 | D62 => Pr D43 D38 | D63 => Pr D44 D19 end
| D46 => match b with D0 => Pr D0 D0 | D1 => Pr D0 D46 | D2 => Pr D1 D28 | D3 => Pr D2 D10 | D4 => Pr D2 D56 | D5 => Pr D3 D38 | D6 => Pr D4 D20 | D7 => Pr D5 D2 | D8 => Pr D5 D48 | D9 => Pr D6 D30 | D10 => Pr D7 D12 | D11 => Pr D7 D58 | D12 => Pr D8 D40 | D13 => Pr D9 D22 | D14 => Pr D10 D4 | D15 => Pr D10 D50 | D16 => Pr D11 D32 | D17 => Pr D12 D14 | D18 => Pr D12 D60 | D19 => Pr D13 D42 | D20 => Pr D14 D24 | D21 => Pr D15 D6 | D22 => Pr D15 D52 | D23 => Pr D16 D34 | D24 => Pr D17 D16 | D25 => Pr D17 D62 | D26 => Pr D18 D44 | D27 => Pr D19 D26 | D28 => Pr D20 D8 | D29 => Pr D20 D54 | D30 => Pr D21 D36 | D31 => Pr D22 D18 | D32 => Pr D23 D0 | D33 => Pr D23 D46 | D34 => Pr D24 D28 | D35 => Pr D25 D10 | D36 => Pr D25 D56 | D37 => Pr D26 D38 | D38 => Pr D27 D20 | D39 => Pr D28 D2 | D40 => Pr D28 D48 | D41 => Pr D29 D30 | D42 => Pr D30 D12 | D43 => Pr D30 D58 | D44 => Pr D31 D40 | D45 => Pr D32 D22 | D46 => Pr D33 D4 | D47 => Pr D33 D50 | D48 => Pr D34 D32 | D49 => Pr D35 D14 | D50 => Pr D35 D60 | D51 => Pr D36 D42 | D52 => Pr D37 D24 | D53 => Pr D38 D6 | D54 => Pr D38 D52 | D55 => Pr D39 D34 | D56 => Pr D40 D16 | D57 => Pr D40 D62 | D58 => Pr D41 D44 | D59 => Pr D42 D26 | D60 => Pr D43 D8 | D61 => Pr D43 D54 | D62 => Pr D44 D36 | D63 => Pr D45 D18 end
| D47 => match b with D0 => Pr D0 D0 | D1 => Pr D0 D47 | D2 => Pr D1 D30 | D3 => Pr D2 D13 | D4 => Pr D2 D60 | D5 => Pr D3 D43 | D6 => Pr D4 D26 | D7 => Pr D5 D9 | D8 => Pr D5 D56 | D9 => Pr D6 D39 | D10 => Pr D7 D22 | D11 => Pr D8 D5 | D12 => Pr D8 D52 | D13 => Pr D9 D35 | D14 => Pr D10 D18 | D15 => Pr D11 D1 | D16 => Pr D11 D48 | D17 => Pr D12 D31 | D18 => Pr D13 D14 | D19 => Pr D13 D61 | D20 => Pr D14 D44 | D21 => Pr D15 D27 | D22 => Pr D16 D10 | D23 => Pr D16 D57 | D24 => Pr D17 D40 | D25 => Pr D18 D23 | D26 => Pr D19 D6 | D27 => Pr D19 D53 | D28 => Pr D20 D36 | D29 => Pr D21 D19 | D30 => Pr D22 D2 | D31 => Pr D22 D49 | D32 => Pr D23 D32 | D33 => Pr D24 D15 | D34 => Pr D24 D62 | D35 => Pr D25 D45 | D36 => Pr D26 D28 | D37 => Pr D27 D11 | D38 => Pr D27 D58 | D39 => Pr D28 D41 | D40 => Pr D29 D24 | D41 => Pr D30 D7 | D42 => Pr D30 D54 | D43 => Pr D31 D37 | D44 => Pr D32 D20 | D45 => Pr D33 D3 | D46 => Pr D33 D50 | D47 => Pr D34 D33 | D48 => Pr D35 D16 | D49 => Pr D35 D63 | D50 => Pr D36 D46 | D51 => Pr D37 D29 | D52 => Pr D38 D12 | D53 => Pr D38 D59 | D54 => Pr D39 D42 | D55 => Pr D40 D25 | D56 => Pr D41 D8 | D57 => Pr D41 D55 | D58 => Pr D42 D38 | D59 => Pr D43 D21 | D60 => Pr D44 D4 | D61 => Pr D44 D51 | D62 => Pr D45 D34 | D63 => Pr D46 D17 end
| D48 => match b with D0 => Pr D0 D0 | D1 => Pr D0 D48 | D2 => Pr D1 D32 | D3 => Pr D2 D16 | D4 => Pr D3 D0 | D5 => Pr D3 D48 | D6 => Pr D4 D32 | D7 => Pr D5 D16 | D8 => Pr D6 D0 | D9 => Pr D6 D48 | D10 => Pr D7 D32 | D11 => Pr D8 D16 | D12 => Pr D9 D0 | D13 => Pr D9 D48 | D14 => Pr D10 D32 | D15 => Pr D11 D16 | D16 => Pr D12 D0 | D17 => Pr D12 D48 | D18 => Pr D13 D32 | D19 => Pr D14 D16 | D20 => Pr D15 D0 | D21 => Pr D15 D48 | D22 => Pr D16 D32 | D23 => Pr D17 D16 | D24 => Pr D18 D0 | D25 => Pr D18 D48 | D26 => Pr D19 D32 | D27 => Pr D20 D16 | D28 => Pr D21 D0 | D29 => Pr D21 D48 | D30 => Pr D22 D32 | D31 => Pr D23 D16 | D32 => Pr D24 D0 | D33 => Pr D24 D48 | D34 => Pr D25 D32 | D35 => Pr D26 D16 | D36 => Pr D27 D0 | D37 => Pr D27 D48 | D38 => Pr D28 D32 | D39 => Pr D29 D16 | D40 => Pr D30 D0 | D41 => Pr D30 D48 | D42 => Pr D31 D32 | D43 => Pr D32 D16 | D44 => Pr D33 D0 | D45 => Pr D33 D48 | D46 => Pr D34 D32 | D47 => Pr D35 D16 | D48 => Pr D36 D0 | D49 => Pr D36 D48 | D50 => Pr D37 D32 | D51 => Pr D38 D16 | D52 => Pr D39 D0 | D53 => Pr D39 D48 | D54 => Pr D40 D32 | D55 => Pr D41 D16 | D56 => Pr D42 D0 | D57 => Pr D42 D48 | D58 => Pr D43 D32 | D59 => Pr D44 D16 | D60 => Pr D45 D0 | D61 => Pr D45 D48 | D62 => Pr D46 D32 | D63 => Pr D47 D16 end
| D49 => match b with D0 => Pr D0 D0 | D1 => Pr D0 D49 | D2 => Pr D1 D34 | D3 => Pr D2 D19 | D4 => Pr D3 D4 | D5 => Pr D3 D53 | D6 => Pr D4 D38 | D7 => Pr D5 D23 | D8 => Pr D6 D8 | D9 => Pr D6 D57 | D10 => Pr D7 D42 | D11 => Pr D8 D27 | D12 => Pr D9 D12 | D13 => Pr D9 D61 | D14 => Pr D10 D46 | D15 => Pr D11 D31 | D16 => Pr D12 D16 | D17 => Pr D13 D1 | D18 => Pr D13 D50 | D19 => Pr D14 D35 | D20 => Pr D15 D20 | D21 => Pr D16 D5 | D22 => Pr D16 D54 | D23 => Pr D17 D39 | D24 => Pr D18 D24 | D25 => Pr D19 D9 | D26 => Pr D19 D58 | D27 => Pr D20 D43 | D28 => Pr D21 D28 | D29 => Pr D22 D13 | D30 => Pr D22 D62 | D31 => Pr D23 D47 | D32 => Pr D24 D32 | D33 => Pr D25 D17 | D34 => Pr D26 D2 | D35 => Pr D26 D51 | D36 => Pr D27 D36 | D37 => Pr D28 D21 | D38 => Pr D29 D6 | D39 => Pr D29 D55 | D40 => Pr D30 D40 | D41 => Pr D31 D25 | D42 => Pr D32 D10 | D43 => Pr D32 D59 | D44 => Pr D33 D44 | D45 => Pr D34 D29 | D46 => Pr D35 D14 | D47 => Pr D35 D63 | D48 => Pr D36 D48 | D49 => Pr D37 D33 | D50 => Pr D38 D18 | D51 => Pr D39 D3 | D52 => Pr D39 D52 | D53 => Pr D40 D37 | D54 => Pr D41 D22 | D55 => Pr D42 D7 | D56 => Pr D42 D56 | D57 => Pr D43 D41 | D58 => Pr D44 D26 | D59 => Pr D45 D11 | D60 => Pr D45 D60 | D61 => Pr D46 D45 | D62 => Pr D47 D30 | D63 => Pr D48 D15 end
| D50 => match b with D0 => Pr D0 D0 | D1 => Pr D0 D50 | D2 => Pr D1 D36 | D3 => Pr D2 D22 | D4 => Pr D3 D8 | D5 => Pr D3 D58 | D6 => Pr D4 D44 | D7 => Pr D5 D30 | D8 => Pr D6 D16 | D9 => Pr D7 D2 | D10 => Pr D7 D52 | D11 => Pr D8 D38 | D12 => Pr D9 D24 | D13 => Pr D10 D10 | D14 => Pr D10 D60 | D15 => Pr D11 D46 | D16 => Pr D12 D32 | D17 => Pr D13 D18 | D18 => Pr D14 D4 | D19 => Pr D14 D54 | D20 => Pr D15 D40 | D21 => Pr D16 D26 | D22 => Pr D17 D12 | D23 => Pr D17 D62 | D24 => Pr D18 D48 | D25 => Pr D19 D34 | D26 => Pr D20 D20 | D27 => Pr D21 D6 | D28 => Pr D21 D56 | D29 => Pr D22 D42 | D30 => Pr D23 D28 | D31 => Pr D24 D14 | D32 => Pr D25 D0 | D33 => Pr D25 D50 | D34 => Pr D26 D36 | D35 => Pr D27 D22 | D36 => Pr D28 D8 | D37 => Pr D28 D58 | D38 => Pr D29 D44 | D39 => Pr D30 D30 | D40 => Pr D31 D16 | D41 => Pr D32 D2 | D42 => Pr D32 D52 | D43 => Pr D33 D38 | D44 => Pr D34 D24 | D45 => Pr D35 D10 | D46 => Pr D35 D60 | D47 => Pr D36 D46 | D48 => Pr D37 D32 | D49 => Pr D38 D18 | D50 => Pr D39 D4 | D51 => Pr D39 D54 | D52 => Pr D40 D40 | D53 => Pr D41 D26 | D54 => Pr D42 D12 | D55 => Pr D42 D62 | D56 => Pr D43 D48 | D57 => Pr D44 D34 | D58 => Pr D45 D20 | D59 => Pr D46 D6 | D60 => Pr D46 D56 | D61 => Pr D47 D42 | D62 => Pr D48 D28 | D63 => Pr D49 D14 end
| D51 => match b with D0 => Pr D0 D0 | D1 => Pr D0 D51 | D2 => Pr D1 D38 | D3 => Pr D2 D25 | D4 => Pr D3 D12 | D5 => Pr D3 D63 | D6 => Pr D4 D50 | D7 => Pr D5 D37 | D8 => Pr D6 D24 | D9 => Pr D7 D11 | D10 => Pr D7 D62 | D11 => Pr D8 D49 | D12 => Pr D9 D36 | D13 => Pr D10 D23 | D14 => Pr D11 D10 | D15 => Pr D11 D61 | D16 => Pr D12 D48 | D17 => Pr D13 D35 | D18 => Pr D14 D22 | D19 => Pr D15 D9 | D20 => Pr D15 D60 | D21 => Pr D16 D47 | D22 => Pr D17 D34 | D23 => Pr D18 D21 | D24 => Pr D19 D8 | D25 => Pr D19 D59 | D26 => Pr D20 D46 | D27 => Pr D21 D33 | D28 => Pr D22 D20 | D29 => Pr D23 D7 | D30 => Pr D23 D58 | D31 => Pr D24 D45 | D32 => Pr D25 D32 | D33 => Pr D26 D19 | D34 => Pr D27 D6 | D35 => Pr D27 D57 | D36 => Pr D28 D44 | D37 => Pr D29 D31 | D38 => Pr D30 D18 | D39 => Pr D31 D5 | D40 => Pr D31 D56 | D41 => Pr D32 D43 | D42 => Pr D33 D30 | D43 => Pr D34 D17 | D44 => Pr D35 D4 | D45 => Pr D35 D55 | D46 => Pr D36 D42 | D47 => Pr D37 D29 | D48 => Pr D38 D16 | D49 => Pr D39 D3 | D50 => Pr D39 D54 | D51 => Pr D40 D41 | D52 => Pr D41 D28 | D53 => Pr D42 D15 | D54 => Pr D43 D2 | D55 => Pr D43 D53 | D56 => Pr D44 D40 | D57 => Pr D45 D27 | D58 => Pr D46 D14 | D59 => Pr D47 D1 | D60 => Pr D47 D52 | D61 => Pr D48 D39 | D62 => Pr D49 D26 | D63 => Pr D50 D13 end
| D52 => match b with D0 => Pr D0 D0 | D1 => Pr D0 D52 | D2 => Pr D1 D40 | D3 => Pr D2 D28 | D4 => Pr D3 D16 | D5 => Pr D4 D4 | D6 => Pr D4 D56 | D7 => Pr D5 D44 | D8 => Pr D6 D32 | D9 => Pr D7 D20 | D10 => Pr D8 D8 | D11 => Pr D8 D60 | D12 => Pr D9 D48 | D13 => Pr D10 D36 | D14 => Pr D11 D24 | D15 => Pr D12 D12 | D16 => Pr D13 D0 | D17 => Pr D13 D52 | D18 => Pr D14 D40 | D19 => Pr D15 D28 | D20 => Pr D16 D16 | D21 => Pr D17 D4 | D22 => Pr D17 D56 | D23 => Pr D18 D44 | D24 => Pr D19 D32 | D25 => Pr D20 D20 | D26 => Pr D21 D8 | D27 => Pr D21 D60 | D28 => Pr D22 D48 | D29 => Pr D23 D36 | D30 => Pr D24 D24 | D31 => Pr D25 D12 | D32 => Pr D26 D0 | D33 => Pr D26 D52 | D34 => Pr D27 D40 | D35 => Pr D28 D28 | D36 => Pr D29 D16 | D37 => Pr D30 D4 | D38 => Pr D30 D56 | D39 => Pr D31 D44 | D40 => Pr D32 D32 | D41 => Pr D33 D20 | D42 => Pr D34 D8 | D43 => Pr D34 D60 | D44 => Pr D35 D48 | D45 => Pr D36 D36 | D46 => Pr D37 D24 | D47 => Pr D38 D12 | D48 => Pr D39 D0 | D49 => Pr D39 D52 | D50 => Pr D40 D40 | D51 => Pr D41 D28 | D52 => Pr D42 D16 | D53 => Pr D43 D4 | D54 => Pr D43 D56 | D55 => Pr D44 D44 | D56 => Pr D45 D32 | D57 => Pr D46 D20 | D58 => Pr D47 D8 | D59 => Pr D47 D60 | D60 => Pr D48 D48 | D61 => Pr D49 D36 | D62 => Pr D50 D24 | D63 => Pr D51 D12 end
| D53 => match b with D0 => Pr D0 D0 | D1 => Pr D0 D53 | D2 => Pr D1 D42 | D3 => Pr D2 D31 | D4 => Pr D3 D20 | D5 => Pr D4 D9 | D6 => Pr D4 D62 | D7 => Pr D5 D51 | D8 => Pr D6 D40 | D9 => Pr D7 D29 | D10 => Pr D8 D18 | D11 => Pr D9 D7 | D12 => Pr D9 D60 | D13 => Pr D10 D49 | D14 => Pr D11 D38 | D15 => Pr D12 D27 | D16 => Pr D13 D16 | D17 => Pr D14 D5 | D18 => Pr D14 D58 | D19 => Pr D15 D47 | D20 => Pr D16 D36 | D21 => Pr D17 D25 | D22 => Pr D18 D14 | D23 => Pr D19 D3 | D24 => Pr D19 D56 | D25 => Pr D20 D45 | D26 => Pr D21 D34 | D27 => Pr D22 D23 | D28 => Pr D23 D12 | D29 => Pr D24 D1 | D30 => Pr D24 D54 | D31 => Pr D25 D43 | D32 => Pr D26 D32 | D33 => Pr D27 D21 | D34 => Pr D28 D10 | D35 => Pr D28 D63 | D36 => Pr D29 D52 | D37 => Pr D30 D41 | D38 => Pr D31 D30 | D39 => Pr D32 D19 | D40 => Pr D33 D8 | D41 => Pr D33 D61 | D42 => Pr D34 D50 | D43 => Pr D35 D39 | D44 => Pr D36 D28 | D45 => Pr D37 D17 | D46 => Pr D38 D6 | D47 => Pr D38 D59 | D48 => Pr D39 D48 | D49 => Pr D40 D37 | D50 => Pr D41 D26 | D51 => Pr D42 D15 | D52 => Pr D43 D4 | D53 => Pr D43 D57 | D54 => Pr D44 D46 | D55 => Pr D45 D35 | D56 => Pr D46 D24 | D57 => Pr D47 D13 | D58 => Pr D48 D2 | D59 => Pr D48 D55 | D60 => Pr D49 D44 | D61 => Pr D50 D33 | D62 => Pr D51 D22 | D63 => Pr D52 D11 end
| D54 => match b with D0 => Pr D0 D0 | D1 => Pr D0 D54 | D2 => Pr D1 D44 | D3 => Pr D2 D34 | D4 => Pr D3 D24 | D5 => Pr D4 D14 | D6 => Pr D5 D4 | D7 => Pr D5 D58 | D8 => Pr D6 D48 | D9 => Pr D7 D38 | D10 => Pr D8 D28 | D11 => Pr D9 D18 | D12 => Pr D10 D8 | D13 => Pr D10 D62 | D14 => Pr D11 D52 | D15 => Pr D12 D42 | D16 => Pr D13 D32 | D17 => Pr D14 D22 | D18 => Pr D15 D12 | D19 => Pr D16 D2 | D20 => Pr D16 D56 | D21 => Pr D17 D46 | D22 => Pr D18 D36 | D23 => Pr D19 D26 | D24 => Pr D20 D16 | D25 => Pr D21 D6 | D26 => Pr D21 D60 | D27 => Pr D22 D50 | D28 => Pr D23 D40 | D29 => Pr D24 D30 | D30 => Pr D25 D20 | D31 => Pr D26 D10 | D32 => Pr D27 D0 | D33 => Pr D27 D54 | D34 => Pr D28 D44 | D35 => Pr D29 D34 | D36 => Pr D30 D24 | D37 => Pr D31 D14 | D38 => Pr D32 D4 | D39 => Pr D32 D58 | D40 => Pr D33 D48 | D41 => Pr D34 D38 | D42 => Pr D35 D28 | D43 => Pr D36 D18 | D44 => Pr D37 D8 | D45 => Pr D37 D62 | D46 => Pr D38 D52 | D47 => Pr D39 D42 | D48 => Pr D40 D32 | D49 => Pr D41 D22 | D50 => Pr D42 D12 | D51 => Pr D43 D2 | D52 => Pr D43 D56 | D53 => Pr D44 D46 | D54 => Pr D45 D36 | D55 => Pr D46 D26 | D56 => Pr D47 D16 | D57 => Pr D48 D6 | D58 => Pr D48 D60 | D59 => Pr D49 D50 | D60 => Pr D50 D40 | D61 => Pr D51 D30 | D62 => Pr D52 D20 | D63 => Pr D53 D10 end
| D55 => match b with D0 => Pr D0 D0 | D1 => Pr D0 D55 | D2 => Pr D1 D46 | D3 => Pr D2 D37 | D4 => Pr D3 D28 | D5 => Pr D4 D19 | D6 => Pr D5 D10 | D7 => Pr D6 D1 | D8 => Pr D6 D56 | D9 => Pr D7 D47 | D10 => Pr D8 D38 | D11 => Pr D9 D29 | D12 => Pr D10 D20 | D13 => Pr D11 D11 | D14 => Pr D12 D2 | D15 => Pr D12 D57 | D16 => Pr D13 D48 | D17 => Pr D14 D39 | D18 => Pr D15 D30 | D19 => Pr D16 D21 | D20 => Pr D17 D12 | D21 => Pr D18 D3 | D22 => Pr D18 D58 | D23 => Pr D19 D49 | D24 => Pr D20 D40 | D25 => Pr D21 D31 | D26 => Pr D22 D22 | D27 => Pr D23 D13 | D28 => Pr D24 D4 | D29 => Pr D24 D59 | D30 => Pr D25 D50 | D31 => Pr D26 D41 | D32 => Pr D27 D32 | D33 => Pr D28 D23 | D34 => Pr D29 D14 | D35 => Pr D30 D5 | D36 => Pr D30 D60 | D37 => Pr D31 D51 | D38 => Pr D32 D42 | D39 => Pr D33 D33 | D40 => Pr D34 D24 | D41 => Pr D35 D15 | D42 => Pr D36 D6 | D43 => Pr D36 D61 | D44 => Pr D37 D52 | D45 => Pr D38 D43 | D46 => Pr D39 D34 | D47 => Pr D40 D25 | D48 => Pr D41 D16 | D49 => Pr D42 D7 | D50 => Pr D42 D62 | D51 => Pr D43 D53 | D52 => Pr D44 D44 | D53 => Pr D45 D35 | D54 => Pr D46 D26 | D55 => Pr D47 D17 | D56 => Pr D48 D8 | D57 => Pr D48 D63 | D58 => Pr D49 D54 | D59 => Pr D50 D45 | D60 => Pr D51 D36 | D61 => Pr D52 D27 | D62 => Pr D53 D18 | D63 => Pr D54 D9 end
| D56 => match b with D0 => Pr D0 D0 | D1 => Pr D0 D56 | D2 => Pr D1 D48 | D3 => Pr D2 D40 | D4 => Pr D3 D32 | D5 => Pr D4 D24 | D6 => Pr D5 D16 | D7 => Pr D6 D8 | D8 => Pr D7 D0 | D9 => Pr D7 D56 | D10 => Pr D8 D48 | D11 => Pr D9 D40 | D12 => Pr D10 D32 | D13 => Pr D11 D24 | D14 => Pr D12 D16 | D15 => Pr D13 D8 | D16 => Pr D14 D0 | D17 => Pr D14 D56 | D18 => Pr D15 D48 | D19 => Pr D16 D40 | D20 => Pr D17 D32 | D21 => Pr D18 D24 | D22 => Pr D19 D16 | D23 => Pr D20 D8 | D24 => Pr D21 D0 | D25 => Pr D21 D56 | D26 => Pr D22 D48 | D27 => Pr D23 D40 | D28 => Pr D24 D32 | D29 => Pr D25 D24 | D30 => Pr D26 D16 | D31 => Pr D27 D8 | D32 => Pr D28 D0 | D33 => Pr D28 D56 | D34 => Pr D29 D48 | D35 => Pr D30 D40 | D36 => Pr D31 D32 | D37 => Pr D32 D24 | D38 => Pr D33 D16 | D39 => Pr D34 D8 | D40 => Pr D35 D0 | D41 => Pr D35 D56 | D42 => Pr D36 D48 | D43 => Pr D37 D40 | D44 => Pr D38 D32 | D45 => Pr D39 D24 | D46 => Pr D40 D16 | D47 => Pr D41 D8 | D48 => Pr D42 D0 | D49 => Pr D42 D56 | D50 => Pr D43 D48 | D51 => Pr D44 D40 | D52 => Pr D45 D32 | D53 => Pr D46 D24 | D54 => Pr D47 D16 | D55 => Pr D48 D8 | D56 => Pr D49 D0 | D57 => Pr D49 D56 | D58 => Pr D50 D48 | D59 => Pr D51 D40 | D60 => Pr D52 D32 | D61 => Pr D53 D24 | D62 => Pr D54 D16 | D63 => Pr D55 D8 end
| D57 => match b with D0 => Pr D0 D0 | D1 => Pr D0 D57 | D2 => Pr D1 D50 | D3 => Pr D2 D43 | D4 => Pr D3 D36 | D5 => Pr D4 D29 | D6 => Pr D5 D22 | D7 => Pr D6 D15 | D8 => Pr D7 D8 | D9 => Pr D8 D1 | D10 => Pr D8 D58 | D11 => Pr D9 D51 | D12 => Pr D10 D44 | D13 => Pr D11 D37 | D14 => Pr D12 D30 | D15 => Pr D13 D23 | D16 => Pr D14 D16 | D17 => Pr D15 D9 | D18 => Pr D16 D2 | D19 => Pr D16 D59 | D20 => Pr D17 D52 | D21 => Pr D18 D45 | D22 => Pr D19 D38 | D23 => Pr D20 D31 | D24 => Pr D21 D24 | D25 => Pr D22 D17 | D26 => Pr D23 D10 | D27 => Pr D24 D3 | D28 => Pr D24 D60 | D29 => Pr D25 D53 | D30 => Pr D26 D46 | D31 => Pr D27 D39 | D32 => Pr D28 D32 | D33 => Pr D29 D25 | D34 => Pr D30 D18 | D35 => Pr D31 D11 | D36 => Pr D32 D4 | D37 => Pr D32 D61 | D38 => Pr D33 D54 | D39 => Pr D34 D47 | D40 => Pr D35 D40 | D41 => Pr D36 D33 | D42 => Pr D37 D26 | D43 => Pr D38 D19 | D44 => Pr D39 D12 | D45 => Pr D40 D5 | D46 => Pr D40 D62 | D47 => Pr D41 D55 | D48 => Pr D42 D48 | D49 => Pr D43 D41 | D50 => Pr D44 D34 | D51 => Pr D45 D27 | D52 => Pr D46 D20 | D53 => Pr D47 D13 | D54 => Pr D48 D6 | D55 => Pr D48 D63 | D56 => Pr D49 D56 | D57 => Pr D50 D49 | D58 => Pr D51 D42 | D59 => Pr D52 D35 | D60 => Pr D53 D28 | D61 => Pr D54 D21 | D62 => Pr D55 D14 | D63 => Pr D56 D7 end
| D58 => match b with D0 => Pr D0 D0 | D1 => Pr D0 D58 | D2 => Pr D1 D52 | D3 => Pr D2 D46 | D4 => Pr D3 D40 | D5 => Pr D4 D34 | D6 => Pr D5 D28 | D7 => Pr D6 D22 | D8 => Pr D7 D16 | D9 => Pr D8 D10 | D10 => Pr D9 D4 | D11 => Pr D9 D62 | D12 => Pr D10 D56 | D13 => Pr D11 D50 | D14 => Pr D12 D44 | D15 => Pr D13 D38 | D16 => Pr D14 D32 | D17 => Pr D15 D26 | D18 => Pr D16 D20 | D19 => Pr D17 D14 | D20 => Pr D18 D8 | D21 => Pr D19 D2 | D22 => Pr D19 D60 | D23 => Pr D20 D54 | D24 => Pr D21 D48 | D25 => Pr D22 D42 | D26 => Pr D23 D36 | D27 => Pr D24 D30 | D28 => Pr D25 D24 | D29 => Pr D26 D18 | D30 => Pr D27 D12 | D31 => Pr D28 D6 | D32 => Pr D29 D0 | D33 => Pr D29 D58 | D34 => Pr D30 D52 | D35 => Pr D31 D46 | D36 => Pr D32 D40 | D37 => Pr D33 D34 | D38 => Pr D34 D28 | D39 => Pr D35 D22 | D40 => Pr D36 D16 | D41 => Pr D37 D10 | D42 => Pr D38 D4 | D43 => Pr D38 D62 | D44 => Pr D39 D56 | D45 => Pr D40 D50 | D46 => Pr D41 D44 | D47 => Pr D42 D38 | D48 => Pr D43 D32 | D49 => Pr D44 D26 | D50 => Pr D45 D20 | D51 => Pr D46 D14 | D52 => Pr D47 D8 | D53 => Pr D48 D2 | D54 => Pr D48 D60 | D55 => Pr D49 D54 | D56 => Pr D50 D48 | D57 => Pr D51 D42 | D58 => Pr D52 D36 | D59 => Pr D53 D30 | D60 => Pr D54 D24 | D61 => Pr D55 D18 | D62 => Pr D56 D12 | D63 => Pr D57 D6 end
| D59 => match b with D0 => Pr D0 D0 | D1 => Pr D0 D59 | D2 => Pr D1 D54 | D3 => Pr D2 D49 | D4 => Pr D3 D44 | D5 => Pr D4 D39 | D6 => Pr D5 D34 | D7 => Pr D6 D29 | D8 => Pr D7 D24 | D9 => Pr D8 D19 | D10 => Pr D9 D14 | D11 => Pr D10 D9 | D12 => Pr D11 D4 | D13 => Pr D11 D63 | D14 => Pr D12 D58 | D15 => Pr D13 D53 | D16 => Pr D14 D48 | D17 => Pr D15 D43 | D18 => Pr D16 D38 | D19 => Pr D17 D33 | D20 => Pr D18 D28 | D21 => Pr D19 D23 | D22 => Pr D20 D18 | D23 => Pr D21 D13 | D24 => Pr D22 D8 | D25 => Pr D23 D3 | D26 => Pr D23 D62 | D27 => Pr D24 D57 | D28 => Pr D25 D52 | D29 => Pr D26 D47 | D30 => Pr D27 D42 | D31 => Pr D28 D37 | D32 => Pr D29 D32 | D33 => Pr D30 D27 | D34 => Pr D31 D22 | D35 => Pr D32 D17 | D36 => Pr D33 D12 | D37 => Pr D34 D7 | D38 => Pr D35 D2 | D39 => Pr D35 D61 | D40 => Pr D36 D56 | D41 => Pr D37 D51 | D42 => Pr D38 D46 | D43 => Pr D39 D41 | D44 => Pr D40 D36 | D45 => Pr D41 D31 | D46 => Pr D42 D26 | D47 => Pr D43 D21 | D48 => Pr D44 D16 | D49 => Pr D45 D11 | D50 => Pr D46 D6 | D51 => Pr D47 D1 | D52 => Pr D47 D60 | D53 => Pr D48 D55 | D54 => Pr D49 D50 | D55 => Pr D50 D45 | D56 => Pr D51 D40 | D57 => Pr D52 D35 | D58 => Pr D53 D30 | D59 => Pr D54 D25 | D60 => Pr D55 D20 | D61 => Pr D56 D15 | D62 => Pr D57 D10 | D63 => Pr D58 D5 end
| D60 => match b with D0 => Pr D0 D0 | D1 => Pr D0 D60 | D2 => Pr D1 D56 | D3 => Pr D2 D52 | D4 => Pr D3 D48 | D5 => Pr D4 D44 | D6 => Pr D5 D40 | D7 => Pr D6 D36 | D8 => Pr D7 D32 | D9 => Pr D8 D28 | D10 => Pr D9 D24 | D11 => Pr D10 D20 | D12 => Pr D11 D16 | D13 => Pr D12 D12 | D14 => Pr D13 D8 | D15 => Pr D14 D4 | D16 => Pr D15 D0 | D17 => Pr D15 D60 | D18 => Pr D16 D56 | D19 => Pr D17 D52 | D20 => Pr D18 D48 | D21 => Pr D19 D44 | D22 => Pr D20 D40 | D23 => Pr D21 D36 | D24 => Pr D22 D32 | D25 => Pr D23 D28 | D26 => Pr D24 D24 | D27 => Pr D25 D20 | D28 => Pr D26 D16 | D29 => Pr D27 D12 | D30 => Pr D28 D8 | D31 => Pr D29 D4 | D32 => Pr D30 D0 | D33 => Pr D30 D60 | D34 => Pr D31 D56 | D35 => Pr D32 D52 | D36 => Pr D33 D48 | D37 => Pr D34 D44 | D38 => Pr D35 D40 | D39 => Pr D36 D36 | D40 => Pr D37 D32 | D41 => Pr D38 D28 | D42 => Pr D39 D24 | D43 => Pr D40 D20 | D44 => Pr D41 D16 | D45 => Pr D42 D12 | D46 => Pr D43 D8 | D47 => Pr D44 D4 | D48 => Pr D45 D0 | D49 => Pr D45 D60 | D50 => Pr D46 D56 | D51 => Pr D47 D52 | D52 => Pr D48 D48 | D53 => Pr D49 D44 | D54 => Pr D50 D40 | D55 => Pr D51 D36 | D56 => Pr D52 D32 | D57 => Pr D53 D28 | D58 => Pr D54 D24 | D59 => Pr D55 D20 | D60 => Pr D56 D16 | D61 => Pr D57 D12 | D62 => Pr D58 D8 | D63 => Pr D59 D4 end
| D61 => match b with D0 => Pr D0 D0 | D1 => Pr D0 D61 | D2 => Pr D1 D58 | D3 => Pr D2 D55 | D4 => Pr D3 D52 | D5 => Pr D4 D49 | D6 => Pr D5 D46 | D7 => Pr D6 D43 | D8 => Pr D7 D40 | D9 => Pr D8 D37 | D10 => Pr D9 D34 | D11 => Pr D10 D31 | D12 => Pr D11 D28 | D13 => Pr D12 D25 | D14 => Pr D13 D22 | D15 => Pr D14 D19 | D16 => Pr D15 D16 | D17 => Pr D16 D13 | D18 => Pr D17 D10 | D19 => Pr D18 D7 | D20 => Pr D19 D4 | D21 => Pr D20 D1 | D22 => Pr D20 D62 | D23 => Pr D21 D59 | D24 => Pr D22 D56 | D25 => Pr D23 D53 | D26 => Pr D24 D50 | D27 => Pr D25 D47 | D28 => Pr D26 D44 | D29 => Pr D27 D41 | D30 => Pr D28 D38 | D31 => Pr D29 D35 | D32 => Pr D30 D32 | D33 => Pr D31 D29 | D34 => Pr D32 D26 | D35 => Pr D33 D23 | D36 => Pr D34 D20 | D37 => Pr D35 D17 | D38 => Pr D36 D14 | D39 => Pr D37 D11 | D40 => Pr D38 D8 | D41 => Pr D39 D5 | D42 => Pr D40 D2 | D43 => Pr D40 D63 | D44 => Pr D41 D60 | D45 => Pr D42 D57 | D46 => Pr D43 D54 | D47 => Pr D44 D51 | D48 => Pr D45 D48 | D49 => Pr D46 D45 | D50 => Pr D47 D42 | D51 => Pr D48 D39 | D52 => Pr D49 D36 | D53 => Pr D50 D33 | D54 => Pr D51 D30 | D55 => Pr D52 D27 | D56 => Pr D53 D24 | D57 => Pr D54 D21 | D58 => Pr D55 D18 | D59 => Pr D56 D15 | D60 => Pr D57 D12 | D61 => Pr D58 D9 | D62 => Pr D59 D6 | D63 => Pr D60 D3 end
| D62 => match b with D0 => Pr D0 D0 | D1 => Pr D0 D62 | D2 => Pr D1 D60 | D3 => Pr D2 D58 | D4 => Pr D3 D56 | D5 => Pr D4 D54 | D6 => Pr D5 D52 | D7 => Pr D6 D50 | D8 => Pr D7 D48 | D9 => Pr D8 D46 | D10 => Pr D9 D44 | D11 => Pr D10 D42 | D12 => Pr D11 D40 | D13 => Pr D12 D38 | D14 => Pr D13 D36 | D15 => Pr D14 D34 | D16 => Pr D15 D32 | D17 => Pr D16 D30 | D18 => Pr D17 D28 | D19 => Pr D18 D26 | D20 => Pr D19 D24 | D21 => Pr D20 D22 | D22 => Pr D21 D20 | D23 => Pr D22 D18 | D24 => Pr D23 D16 | D25 => Pr D24 D14 | D26 => Pr D25 D12 | D27 => Pr D26 D10 | D28 => Pr D27 D8 | D29 => Pr D28 D6 | D30 => Pr D29 D4 | D31 => Pr D30 D2 | D32 => Pr D31 D0 | D33 => Pr D31 D62 | D34 => Pr D32 D60 | D35 => Pr D33 D58 | D36 => Pr D34 D56 | D37 => Pr D35 D54 | D38 => Pr D36 D52 | D39 => Pr D37 D50 | D40 => Pr D38 D48 | D41 => Pr D39 D46 | D42 => Pr D40 D44 | D43 => Pr D41 D42 | D44 => Pr D42 D40 | D45 => Pr D43 D38 | D46 => Pr D44 D36 | D47 => Pr D45 D34 | D48 => Pr D46 D32 | D49 => Pr D47 D30 | D50 => Pr D48 D28 | D51 => Pr D49 D26 | D52 => Pr D50 D24 | D53 => Pr D51 D22 | D54 => Pr D52 D20 | D55 => Pr D53 D18 | D56 => Pr D54 D16 | D57 => Pr D55 D14 | D58 => Pr D56 D12 | D59 => Pr D57 D10 | D60 => Pr D58 D8 | D61 => Pr D59 D6 | D62 => Pr D60 D4 | D63 => Pr D61 D2 end
| D63 => match b with D0 => Pr D0 D0 | D1 => Pr D0 D63 | D2 => Pr D1 D62 | D3 => Pr D2 D61 | D4 => Pr D3 D60 | D5 => Pr D4 D59 | D6 => Pr D5 D58 | D7 => Pr D6 D57 | D8 => Pr D7 D56 | D9 => Pr D8 D55 | D10 => Pr D9 D54 | D11 => Pr D10 D53 | D12 => Pr D11 D52 | D13 => Pr D12 D51 | D14 => Pr D13 D50 | D15 => Pr D14 D49 | D16 => Pr D15 D48 | D17 => Pr D16 D47 | D18 => Pr D17 D46 | D19 => Pr D18 D45 | D20 => Pr D19 D44 | D21 => Pr D20 D43 | D22 => Pr D21 D42 | D23 => Pr D22 D41 | D24 => Pr D23 D40 | D25 => Pr D24 D39 | D26 => Pr D25 D38 | D27 => Pr D26 D37 | D28 => Pr D27 D36 | D29 => Pr D28 D35 | D30 => Pr D29 D34 | D31 => Pr D30 D33 | D32 => Pr D31 D32 | D33 => Pr D32 D31 | D34 => Pr D33 D30 | D35 => Pr D34 D29 | D36 => Pr D35 D28 | D37 => Pr D36 D27 | D38 => Pr D37 D26 | D39 => Pr D38 D25 | D40 => Pr D39 D24 | D41 => Pr D40 D23 | D42 => Pr D41 D22 | D43 => Pr D42 D21 | D44 => Pr D43 D20 | D45 => Pr D44 D19 | D46 => Pr D45 D18 | D47 => Pr D46 D17 | D48 => Pr D47 D16 | D49 => Pr D48 D15 | D50 => Pr D49 D14 | D51 => Pr D50 D13 | D52 => Pr D51 D12 | D53 => Pr D52 D11 | D54 => Pr D53 D10 | D55 => Pr D54 D9 | D56 => Pr D55 D8 | D57 => Pr D56 D7 | D58 => Pr D57 D6 | D59 => Pr D58 D5 | D60 => Pr D59 D4 | D61 => Pr D60 D3 | D62 => Pr D61 D2 | D63 => Pr D62 D1 end
end.
Definition dadd (a b : dg) : cr := match a with
| D0 => match b with D0 => Cn D0 | D1 => Cn D1 | D2 => Cn D2 | D3 => Cn D3 | D4 => Cn D4 | D5 => Cn D5 | D6 => Cn D6 | D7 => Cn D7 | D8 => Cn D8 | D9 => Cn D9 | D10 => Cn D10 | D11 => Cn D11 | D12 => Cn D12 | D13 => Cn D13 | D14 => Cn D14 | D15 => Cn D15 | D16 => Cn D16 | D17 => Cn D17 | D18 => Cn D18 | D19 => Cn D19 | D20 => Cn D20 | D21 => Cn D21 | D22 => Cn D22 | D23 => Cn D23 | D24 => Cn D24 | D25 => Cn D25 | D26 => Cn D26 | D27 => Cn D27 | D28 => Cn D28 | D29 => Cn D29 | D30 => Cn D30 | D31 => Cn D31 | D32 => Cn D32 | D33 => Cn D33 | D34 => Cn D34 | D35 => Cn D35 | D36 => Cn D36 | D37 => Cn D37 | D38 => Cn D38 | D39 => Cn D39 | D40 => Cn D40 | D41 => Cn D41 | D42 => Cn D42 | D43 => Cn D43 | D44 => Cn D44 | D45 => Cn D45 | D46 => Cn D46 | D47 => Cn D47 | D48 => Cn D48 | D49 => Cn D49 | D50 => Cn D50 | D51 => Cn D51 | D52 => Cn D52 | D53 => Cn D53 | D54 => Cn D54 | D55 => Cn D55 | D56 => Cn D56 | D57 => Cn D57 | D58 => Cn D58 | D59 => Cn D59 | D60 => Cn D60 | D61 => Cn D61 | D62 => Cn D62 | D63 => Cn D63 end
| D1 => match b with D0 => Cn D1 | D1 => Cn D2 | D2 => Cn D3 | D3 => Cn D4 | D4 => Cn D5 | D5 => Cn D6 | D6 => Cn D7 | D7 => Cn D8 | D8 => Cn D9 | D9 => Cn D10 | D10 => Cn D11 | D11 => Cn D12 | D12 => Cn D13 | D13 => Cn D14 | D14 => Cn D15 | D15 => Cn D16 | D16 => Cn D17 | D17 => Cn D18 | D18 => Cn D19 | D19 => Cn D20 | D20 => Cn D21 | D21 => Cn D22 | D22 => Cn D23 | D23 => Cn D24 | D24 => Cn D25 | D25 => Cn D26 | D26 => Cn D27 | D27 => Cn D28 | D28 => Cn D29 | D29 => Cn D30 | D30 => Cn D31 | D31 => Cn D32 | D32 => Cn D33 | D33 => Cn D34 | D34 => Cn D35 | D35 => Cn D36 | D36 => Cn D37 | D37 => Cn D38 | D38 => Cn D39 | D39 => Cn D40 | D40 => Cn D41 | D41 => Cn D42 | D42 => Cn D43 | D43 => Cn D44 | D44 => Cn D45 | D45 => Cn D46 | D46 => Cn D47 | D47 => Cn D48 | D48 => Cn D49 | D49 => Cn D50 | D50 => Cn D51 | D51 => Cn D52 | D52 => Cn D53 | D53 => Cn D54 | D54 => Cn D55 | D55 => Cn D56 | D56 => Cn D57 | D57 => Cn D58 | D58 => Cn D59 | D59 => Cn D60 | D60 => Cn D61 | D61 => Cn D62 | D62 => Cn D63 | D63 => Cy D0 end
| D2 => match b with D0 => Cn D2 | D1 => Cn D3 | D2 => Cn D4 | D3 => Cn D5 | D4 => Cn D6 | D5 => Cn D7 | D6 => Cn D8 | D7 => Cn D9 | D8 => Cn D10 | D9 => Cn D11 | D10 => Cn D12 | D11 => Cn D13 | D12 => Cn D14 | D13 => Cn D15 | D14 => Cn D16 | D15 => Cn D17 | D16 => Cn D18 | D17 => Cn D19 | D18 => Cn D20 | D19 => Cn D21 | D20 => Cn D22 | D21 => Cn D23 | D22 => Cn D24 | D23 => Cn D25 | D24 => Cn D26 | D25 => Cn D27 | D26 => Cn D28 | D27 => Cn D29 | D28 => Cn D30 | D29 => Cn D31 | D30 => Cn D32 | D31 => Cn D33 | D32 => Cn D34 | D33 => Cn D35 | D34 => Cn D36 | D35 => Cn D37 | D36 => Cn D38 | D37 => Cn D39 | D38 => Cn D40 | D39 => Cn D41 | D40 => Cn D42 | D41 => Cn D43 | D42 => Cn D44 | D43 => Cn D45 | D44 => Cn D46 | D45 => Cn D47 | D46 => Cn D48 | D47 => Cn D49 | D48 => Cn D50 | D49 => Cn D51 | D50 => Cn D52 | D51 => Cn D53 | D52 => Cn D54 | D53 => Cn D55 | D54 => Cn D56 | D55 => Cn D57 | D56 => Cn D58 | D57 => Cn D59 | D58 => Cn D60 | D59 => Cn D61 | D60 => Cn D62 | D61 => Cn D63 | D62 => Cy D0 | D63 => Cy D1 end
| D3 => match b with D0 => Cn D3 | D1 => Cn D4 | D2 => Cn D5 | D3 => Cn D6 | D4 => Cn D7 | D5 => Cn D8 | D6 => Cn D9 | D7 => Cn D10 | D8 => Cn D11 | D9 => Cn D12 | D10 => Cn D13 | D11 => Cn D14 | D12 => Cn D15 | D13 => Cn D16 | D14 => Cn D17 | D15 => Cn D18 | D16 => Cn D19 | D17 => Cn D20 | D18 => Cn D21 | D19 => Cn D22 | D20 => Cn D23 | D21 => Cn D24 | D22 => Cn D25 | D23 => Cn D26 | D24 => Cn D27 | D25 => Cn D28 | D26 => Cn D29 | D27 => Cn D30 | D28 => Cn D31 | D29 => Cn D32 | D30 => Cn D33 | D31 => Cn D34 | D32 => Cn D35 | D33 => Cn D36 | D34 => Cn D37 | D35 => Cn D38 | D36 => Cn D39 | D37 => Cn D40 | D38 => Cn D41 | D39 => Cn D42 | D40 => Cn D43 | D41 => Cn D44 | D42 => Cn D45 | D43 => Cn D46 | D44 => Cn D47 | D45 => Cn D48 | D46 => Cn D49 | D47 => Cn D50 | D48 => Cn D51 | D49 => Cn D52 | D50 => Cn D53 | D51 => Cn D54 | D52 => Cn D55 | D53 => Cn D56 | D54 => Cn D57 | D55 => Cn D58 | D56 => Cn D59 | D57 => Cn D60 | D58 => Cn D61 | D59 => Cn D62 | D60 => Cn D63 | D61 => Cy D0 | D62 => Cy D1 | D63 => Cy D2 end
| D4 => match b with D0 => Cn D4 | D1 => Cn D5 | D2 => Cn D6 | D3 => Cn D7 | D4 => Cn D8 | D5 => Cn D9 | D6 => Cn D10 | D7 => Cn D11 | D8 => Cn D12 | D9 => Cn D13 | D10 => Cn D14 | D11 => Cn D15 | D12 => Cn D16 | D13 => Cn D17 | D14 => Cn D18 | D15 => Cn D19 | D16 => Cn D20 | D17 => Cn D21 | D18 => Cn D22 | D19 => Cn D23 | D20 => Cn D24 | D21 => Cn D25 | D22 => Cn D26 | D23 => Cn D27 | D24 => Cn D28 | D25 => Cn D29 | D26 => Cn D30 | D27 => Cn D31 | D28 => Cn D32 | D29 => Cn D33 | D30 => Cn D34 | D31 => Cn D35 | D32 => Cn D36 | D33 => Cn D37 | D34 => Cn D38 | D35 => Cn D39 | D36 => Cn D40 | D37 => Cn D41 | D38 => Cn D42 | D39 => Cn D43 | D40 => Cn D44 | D41 => Cn D45 | D42 => Cn D46 | D43 => Cn D47 | D44 => Cn D48 | D45 => Cn D49 | D46 => Cn D50 | D47 => Cn D51 | D48 => Cn D52 | D49 => Cn D53 | D50 => Cn D54 | D51 => Cn D55 | D52 => Cn D56 | D53 => Cn D57 | D54 => Cn D58 | D55 => Cn D59 | D56 => Cn D60 | D57 => Cn D61 | D58 => Cn D62 | D59 => Cn D63 | D60 => Cy D0 | D61 => Cy D1 | D62 => Cy D2 | D63 => Cy D3 end
| D5 => match b with D0 => Cn D5 | D1 => Cn D6 | D2 => Cn D7 | D3 => Cn D8 | D4 => Cn D9 | D5 => Cn D10 | D6 => Cn D11 | D7 => Cn D12 | D8 => Cn D13 | D9 => Cn D14 | D10 => Cn D15 | D11 => Cn D16 | D12 => Cn D17 | D13 => Cn D18 | D14 => Cn D19 | D15 => Cn D20 | D16 => Cn D21 | D17 => Cn D22 | D18 => Cn D23 | D19 => Cn D24 | D20 => Cn D25 | D21 => Cn D26 | D22 => Cn D27 | D23 => Cn D28 | D24 => Cn D29 | D25 => Cn D30 | D26 => Cn D31 | D27 => Cn D32 | D28 => Cn D33 | D29 => Cn D34 | D30 => Cn D35 | D31 => Cn D36 | D32 => Cn D37 | D33 => Cn D38 | D34 => Cn D39 | D35 => Cn D40 | D36 => Cn D41 | D37 => Cn D42 | D38 => Cn D43 | D39 => Cn D44 | D40 => Cn D45 | D41 => Cn D46 | D42 => Cn D47 | D43 => Cn D48 | D44 => Cn D49 | D45 => Cn D50 | D46 => Cn D51 | D47 => Cn D52 | D48 => Cn D53 | D49 => Cn D54 | D50 => Cn D55 | D51 => Cn D56 | D52 => Cn D57 | D53 => Cn D58 | D54 => Cn D59 | D55 => Cn D60 | D56 => Cn D61 | D57 => Cn D62 | D58 => Cn D63 | D59 => Cy D0 | D60 => Cy D1 | D61 => Cy D2 | D62 => Cy D3 | D63 => Cy D4 end
| D6 => match b with D0 => Cn D6 | D1 => Cn D7 | D2 => Cn D8 | D3 => Cn D9 | D4 => Cn D10 | D5 => Cn D11 | D6 => Cn D12 | D7 => Cn D13 | D8 => Cn D14 | D9 => Cn D15 | D10 => Cn D16 | D11 => Cn D17 | D12 => Cn D18 | D13 => Cn D19 | D14 => Cn D20 | D15 => Cn D21 | D16 => Cn D22 | D17 => Cn D23 | D18 => Cn D24 | D19 => Cn D25 | D20 => Cn D26 | D21 => Cn D27 | D22 => Cn D28 | D23 => Cn D29 | D24 => Cn D30 | D25 => Cn D31 | D26 => Cn D32 | D27 => Cn D33 | D28 => Cn D34 | D29 => Cn D35 | D30 => Cn D36 | D31 => Cn D37 | D32 => Cn D38 | D33 => Cn D39 | D34 => Cn D40 | D35 => Cn D41 | D36 => Cn D42 | D37 => Cn D43 | D38 => Cn D44 | D39 => Cn D45 | D40 => Cn D46 | D41 => Cn D47 | D42 => Cn D48 | D43 => Cn D49 | D44 => Cn D50 | D45 => Cn D51 | D46 => Cn D52 | D47 => Cn D53 | D48 => Cn D54 | D49 => Cn D55 | D50 => Cn D56 | D51 => Cn D57 | D52 => Cn D58 | D53 => Cn D59 | D54 => Cn D60 | D55 => Cn D61 | D56 => Cn D62 | D57 => Cn D63 | D58 => Cy D0 | D59 => Cy D1 | D60 => Cy D2 | D61 => Cy D3 | D62 => Cy D4 | D63 => Cy D5 end
| D7 => match b with D0 => Cn D7 | D1 => Cn D8 | D2 => Cn D9 | D3 => Cn D10 | D4 => Cn D11 | D5 => Cn D12 | D6 => Cn D13 | D7 => Cn D14 | D8 => Cn D15 | D9 => Cn D16 | D10 => Cn D17 | D11 => Cn D18 | D12 => Cn D19 | D13 => Cn D20 | D14 => Cn D21 | D15 => Cn D22 | D16 => Cn D23 | D17 => Cn D24 | D18 => Cn D25 | D19 => Cn D26 | D20 => Cn D27 | D21 => Cn D28 | D22 => Cn D29 | D23 => Cn D30 | D24 => Cn D31 | D25 => Cn D32 | D26 => Cn D33 | D27 => Cn D34 | D28 => Cn D35 | D29 => Cn D36 | D30 => Cn D37 | D31 => Cn D38 | D32 => Cn D39 | D33 => Cn D40 | D34 => Cn D41 | D35 => Cn D42 | D36 => Cn D43 | D37 => Cn D44 | D38 => Cn D45 | D39 => Cn D46 | D40 => Cn D47 | D41 => Cn D48 | D42 => Cn D49 | D43 => Cn D50 | D44 => Cn D51 | D45 => Cn D52 | D46 => Cn D53 | D47 => Cn D54 | D48 => Cn D55 | D49 => Cn D56 | D50 => Cn D57 | D51 => Cn D58 | D52 => Cn D59 | D53 => Cn D60 | D54 => Cn D61 | D55 => Cn D62 | D56 => Cn D63 | D57 => Cy D0 | D58 => Cy D1 | D59 => Cy D2 | D60 => Cy D3 | D61 => Cy D4 | D62 => Cy D5 | D63 => Cy D6 end
| D8 => match b with D0 => Cn D8 | D1 => Cn D9 | D2 => Cn D10 | D3 => Cn D11 | D4 => Cn D12 | D5 => Cn D13 | D6 => Cn D14 | D7 => Cn D15 | D8 => Cn D16 | D9 => Cn D17 | D10 => Cn D18 | D11 => Cn D19 | D12 => Cn D20 | D13 => Cn D21 | D14 => Cn D22 | D15 => Cn D23 | D16 => Cn D24 | D17 => Cn D25 | D18 => Cn D26 | D19 => Cn D27 | D20 => Cn D28 | D21 => Cn D29 | D22 => Cn D30 | D23 => Cn D31 | D24 => Cn D32 | D25 => Cn D33 | D26 => Cn D34 | D27 => Cn D35 | D28 => Cn D36 | D29 => Cn D37 | D30 => Cn D38 | D31 => Cn D39 | D32 => Cn D40 | D33 => Cn D41 | D34 => Cn D42 | D35 => Cn D43 | D36 => Cn D44 | D37 => Cn D45 | D38 => Cn D46 | D39 => Cn D47 | D40 => Cn D48 | D41 => Cn D49 | D42 => Cn D50 | D43 => Cn D51 | D44 => Cn D52 | D45 => Cn D53 | D46 => Cn D54 | D47 => Cn D55 | D48 => Cn D56 | D49 => Cn D57 | D50 => Cn D58 | D51 => Cn D59 | D52 => Cn D60 | D53 => Cn D61 | D54 => Cn D62 | D55 => Cn D63 | D56 => Cy D0 | D57 => Cy D1 | D58 => Cy D2 | D59 => Cy D3 | D60 => Cy D4 | D61 => Cy D5 | D62 => Cy D6 | D63 => Cy D7 end
| D9 => match b with D0 => Cn D9 | D1 => Cn D10 | D2 => Cn D11 | D3 => Cn D12 | D4 => Cn D13 | D5 => Cn D14 | D6 => Cn D15 | D7 => Cn D16 | D8 => Cn D17 | D9 => Cn D18 | D10 => Cn D19 | D11 => Cn D20 | D12 => Cn D21 | D13 => Cn D22 | D14 => Cn D23 | D15 => Cn D24 | D16 => Cn D25 | D17 => Cn D26 | D18 => Cn D27 | D19 => Cn D28 | D20 => Cn D29 | D21 => Cn D30 | D22 => Cn D31 | D23 => Cn D32 | D24 => Cn D33 | D25 => Cn D34 | D26 => Cn D35 | D27 => Cn D36 | D28 => Cn D37 | D29 => Cn D38 | D30 => Cn D39 | D31 => Cn D40 | D32 => Cn D41 | D33 => Cn D42 | D34 => Cn D43 | D35 => Cn D44 | D36 => Cn D45 | D37 => Cn D46 | D38 => Cn D47 | D39 => Cn D48 | D40 => Cn D49 | D41 => Cn D50 | D42 => Cn D51 | D43 => Cn D52 | D44 => Cn D53 | D45 => Cn D54 | D46 => Cn D55 | D47 => Cn D56 | D48 => Cn D57 | D49 => Cn D58 | D50 => Cn D59 | D51 => Cn D60 | D52 => Cn D61 | D53 => Cn D62 | D54 => Cn D63 | D55 => Cy D0 | D56 => Cy D1 | D57 => Cy D2 | D58 => Cy D3 | D59 => Cy D4 | D60 => Cy D5 | D61 => Cy D6 | D62 => Cy D7 | D63 => Cy D8 end
| D10 => match b with D0 => Cn D10 | D1 => Cn D11 | D2 => Cn D12 | D3 => Cn D13 | D4 => Cn D14 | D5 => Cn D15 | D6 => Cn D16 | D7 => Cn D17 | D8 => Cn D18 | D9 => Cn D19 | D10 => Cn D20 | D11 => Cn D21 | D12 => Cn D22 | D13 => Cn D23 | D14 => Cn D24 | D15 => Cn D25 | D16 => Cn D26 | D17 => Cn D27 | D18 => Cn D28 | D19 => Cn D29 | D20 => Cn D30 | D21 => Cn D31 | D22 => Cn D32 | D23 => Cn D33 | D24 => Cn D34 | D25 => Cn D35 | D26 => Cn D36 | D27 => Cn D37 | D28 => Cn D38 | D29 => Cn D39 | D30 => Cn D40 | D31 => Cn D41 | D32 => Cn D42 | D33 => Cn D43 | D34 => Cn D44 | D35 => Cn D45 | D36 => Cn D46 | D37 => Cn D47 | D38 => Cn D48 | D39 => Cn D49 | D40 => Cn D50 | D41 => Cn D51 | D42 => Cn D52 | D43 => Cn D53 | D44 => Cn D54 | D45 => Cn D55 | D46 => Cn D56 | D47 => Cn D57 | D48 => Cn D58 | D49 => Cn D59 | D50 => Cn D60 | D51 => Cn D61 | D52 => Cn D62 | D53 => Cn D63 | D54 => Cy D0 | D55 => Cy D1 | D56 => Cy D2 | D57 => Cy D3 | D58 => Cy D4 | D59 => Cy D5 | D60 => Cy D6 | D61 => Cy D7 | D62 => Cy D8 | D63 => Cy D9 end
| D11 => match b with D0 => Cn D11 | D1 => Cn D12 | D2 => Cn D13 | D3 => Cn D14 | D4 => Cn D15 | D5 => Cn D16 | D6 => Cn D17 | D7 => Cn D18 | D8 => Cn D19 | D9 => Cn D20 | D10 => Cn D21 | D11 => Cn D22 | D12 => Cn D23 | D13 => Cn D24 | D14 => Cn D25 | D15 => Cn D26 | D16 => Cn D27 | D17 => Cn D28 | D18 => Cn D29 | D19 => Cn D30 | D20 => Cn D31 | D21 => Cn D32 | D22 => Cn D33 | D23 => Cn D34 | D24 => Cn D35 | D25 => Cn D36 | D26 => Cn D37 | D27 => Cn D38 | D28 => Cn D39 | D29 => Cn D40 | D30 => Cn D41 | D31 => Cn D42 | D32 => Cn D43 | D33 => Cn D44 | D34 => Cn D45 | D35 => Cn D46 | D36 => Cn D47 | D37 => Cn D48 | D38 => Cn D49 | D39 => Cn D50 | D40 => Cn D51 | D41 => Cn D52 | D42 => Cn D53 | D43 => Cn D54 | D44 => Cn D55 | D45 => Cn D56 | D46 => Cn D57 | D47 => Cn D58 | D48 => Cn D59 | D49 => Cn D60 | D50 => Cn D61 | D51 => Cn D62 | D52 => Cn D63 | D53 => Cy D0 | D54 => Cy D1 | D55 => Cy D2 | D56 => Cy D3 | D57 => Cy D4 | D58 => Cy D5 | D59 => Cy D6 | D60 => Cy D7 | D61 => Cy D8 | D62 => Cy D9 | D63 => Cy D10 end
| D12 => match b with D0 => Cn D12 | D1 => Cn D13 | D2 => Cn D14 | D3 => Cn D15 | D4 => Cn D16 | D5 => Cn D17 | D6 => Cn D18 | D7 => Cn D19 | D8 => Cn D20 | D9 => Cn D21 | D10 => Cn D22 | D11 => Cn D23 | D12 => Cn D24 | D13 => Cn D25 | D14 => Cn D26 | D15 => Cn D27 | D16 => Cn D28 | D17 => Cn D29 | D18 => Cn D30 | D19 => Cn D31 | D20 => Cn D32 | D21 => Cn D33 | D22 => Cn D34 | D23 => Cn D35 | D24 => Cn D36 | D25 => Cn D37 | D26 => Cn D38 | D27 => Cn D39 | D28 => Cn D40 | D29 => Cn D41 | D30 => Cn D42 | D31 => Cn D43 | D32 => Cn D44 | D33 => Cn D45 | D34 => Cn D46 | D35 => Cn D47 | D36 => Cn D48 | D37 => Cn D49 | D38 => Cn D50 | D39 => Cn D51 | D40 => Cn D52 | D41 => Cn D53 | D42 => Cn D54 | D43 => Cn D55 | D44 => Cn D56 | D45 => Cn D57 | D46 => Cn D58 | D47 => Cn D59 | D48 => Cn D60 | D49 => Cn D61 | D50 => Cn D62 | D51 => Cn D63 | D52 => Cy D0 | D53 => Cy D1 | D54 => Cy D2 | D55 => Cy D3 | D56 => Cy D4 | D57 => Cy D5 | D58 => Cy D6 | D59 => Cy D7 | D60 => Cy D8 | D61 => Cy D9 | D62 => Cy D10 | D63 => Cy D11 end
| D13 => match b with D0 => Cn D13 | D1 => Cn D14 | D2 => Cn D15 | D3 => Cn D16 | D4 => Cn D17 | D5 => Cn D18 | D6 => Cn D19 | D7 => Cn D20 | D8 => Cn D21 | D9 => Cn D22 | D10 => Cn D23 | D11 => Cn D24 | D12 => Cn D25 | D13 => Cn D26 | D14 => Cn D27 | D15 => Cn D28 | D16 => Cn D29 | D17 => Cn D30 | D18 => Cn D31 | D19 => Cn D32 | D20 => Cn D33 | D21 => Cn D34 | D22 => Cn D35 | D23 => Cn D36 | D24 => Cn D37 | D25 => Cn D38 | D26 => Cn D39 | D27 => Cn D40 | D28 => Cn D41 | D29 => Cn D42 | D30 => Cn D43 | D31 => Cn D44 | D32 => Cn D45 | D33 => Cn D46 | D34 => Cn D47 | D35 => Cn D48 | D36 => Cn D49 | D37 => Cn D50 | D38 => Cn D51 | D39 => Cn D52 | D40 => Cn D53 | D41 => Cn D54 | D42 => Cn D55 | D43 => Cn D56 | D44 => Cn D57 | D45 => Cn D58 | D46 => Cn D59 | D47 => Cn D60 | D48 => Cn D61 | D49 => Cn D62 | D50 => Cn D63 | D51 => Cy D0 | D52 => Cy D1 | D53 => Cy D2 | D54 => Cy D3 | D55 => Cy D4 | D56 => Cy D5 | D57 => Cy D6 | D58 => Cy D7 | D59 => Cy D8 | D60 => Cy D9 | D61 => Cy D10 | D62 => Cy D11 | D63 => Cy D12 end
| D14 => match b with D0 => Cn D14 | D1 => Cn D15 | D2 => Cn D16 | D3 => Cn D17 | D4 => Cn D18 | D5 => Cn D19 | D6 => Cn D20 | D7 => Cn D21 | D8 => Cn D22 | D9 => Cn D23 | D10 => Cn D24 | D11 => Cn D25 | D12 => Cn D26 | D13 => Cn D27 | D14 => Cn D28 | D15 => Cn D29 | D16 => Cn D30 | D17 => Cn D31 | D18 => Cn D32 | D19 => Cn D33 | D20 => Cn D34 | D21 => Cn D35 | D22 => Cn D36 | D23 => Cn D37 | D24 => Cn D38 | D25 => Cn D39 | D26 => Cn D40 | D27 => Cn D41 | D28 => Cn D42 | D29 => Cn D43 | D30 => Cn D44 | D31 => Cn D45 | D32 => Cn D46 | D33 => Cn D47 | D34 => Cn D48 | D35 => Cn D49 | D36 => Cn D50 | D37 => Cn D51 | D38 => Cn D52 | D39 => Cn D53 | D40 => Cn D54 | D41 => Cn D55 | D42 => Cn D56 | D43 => Cn D57 | D44 => Cn D58 | D45 => Cn D59 | D46 => Cn D60 | D47 => Cn D61 | D48 => Cn D62 | D49 => Cn D63 | D50 => Cy D0 | D51 => Cy D1 | D52 => Cy D2 | D53 => Cy D3 | D54 => Cy D4 | D55 => Cy D5 | D56 => Cy D6 | D57 => Cy D7 | D58 => Cy D8 | D59 => Cy D9 | D60 => Cy D10 | D61 => Cy D11 | D62 => Cy D12 | D63 => Cy D13 end
| D15 => match b with D0 => Cn D15 | D1 => Cn D16 | D2 => Cn D17 | D3 => Cn D18 | D4 => Cn D19 | D5 => Cn D20 | D6 => Cn D21 | D7 => Cn D22 | D8 => Cn D23 | D9 => Cn D24 | D10 => Cn D25 | D11 => Cn D26 | D12 => Cn D27 | D13 => Cn D28 | D14 => Cn D29 | D15 => Cn D30 | D16 => Cn D31 | D17 => Cn D32 | D18 => Cn D33 | D19 => Cn D34 | D20 => Cn D35 | D21 => Cn D36 | D22 => Cn D37 | D23 => Cn D38 | D24 => Cn D39 | D25 => Cn D40 | D26 => Cn D41 | D27 => Cn D42 | D28 => Cn D43 | D29 => Cn D44 | D30 => Cn D45 | D31 => Cn D46 | D32 => Cn D47 | D33 => Cn D48 | D34 => Cn D49 | D35 => Cn D50 | D36 => Cn D51 | D37 => Cn D52 | D38 => Cn D53 | D39 => Cn D54 | D40 => Cn D55 | D41 => Cn D56 | D42 => Cn D57 | D43 => Cn D58 | D44 => Cn D59 | D45 => Cn D60 | D46 => Cn D61 | D47 => Cn D62 | D48 => Cn D63 | D49 => Cy D0 | D50 => Cy D1 | D51 => Cy D2 | D52 => Cy D3 | D53 => Cy D4 | D54 => Cy D5 | D55 => Cy D6 | D56 => Cy D7 | D57 => Cy D8 | D58 => Cy D9 | D59 => Cy D10 | D60 => Cy D11 | D61 => Cy D12 | D62 => Cy D13 | D63 => Cy D14 end
| D16 => match b with D0 => Cn D16 | D1 => Cn D17 | D2 => Cn D18 | D3 => Cn D19 | D4 => Cn D20 | D5 => Cn D21 | D6 => Cn D22 | D7 => Cn D23 | D8 => Cn D24 | D9 => Cn D25 | D10 => Cn D26 | D11 => Cn D27 | D12 => Cn D28 | D13 => Cn D29 | D14 => Cn D30 | D15 => Cn D31 | D16 => Cn D32 | D17 => Cn D33 | D18 => Cn D34 | D19 => Cn D35 | D20 => Cn D36 | D21 => Cn D37 | D22 => Cn D38 | D23 => Cn D39 | D24 => Cn D40 | D25 => Cn D41 | D26 => Cn D42 | D27 => Cn D43 | D28 => Cn D44 | D29 => Cn D45 | D30 => Cn D46 | D31 => Cn D47 | D32 => Cn D48 | D33 => Cn D49 | D34 => Cn D50 | D35 => Cn D51 | D36 => Cn D52 | D37 => Cn D53 | D38 => Cn D54 | D39 => Cn D55 | D40 => Cn D56 | D41 => Cn D57 | D42 => Cn D58 | D43 => Cn D59 | D44 => Cn D60 | D45 => Cn D61 | D46 => Cn D62 | D47 => Cn D63 | D48 => Cy D0 | D49 => Cy D1 | D50 => Cy D2 | D51 => Cy D3 | D52 => Cy D4 | D53 => Cy D5 | D54 => Cy D6 | D55 => Cy D7 | D56 => Cy D8 | D57 => Cy D9 | D58 => Cy D10 | D59 => Cy D11 | D60 => Cy D12 | D61 => Cy D13 | D62 => Cy D14 | D63 => Cy D15 end
| D17 => match b with D0 => Cn D17 | D1 => Cn D18 | D2 => Cn D19 | D3 => Cn D20 | D4 => Cn D21 | D5 => Cn D22 | D6 => Cn D23 | D7 => Cn D24 | D8 => Cn D25 | D9 => Cn D26 | D10 => Cn D27 | D11 => Cn D28 | D12 => Cn D29 | D13 => Cn D30 | D14 => Cn D31 | D15 => Cn D32 | D16 => Cn D33 | D17 => Cn D34 | D18 => Cn D35 | D19 => Cn D36 | D20 => Cn D37 | D21 => Cn D38 | D22 => Cn D39 | D23 => Cn D40 | D24 => Cn D41 | D25 => Cn D42 | D26 => Cn D43 | D27 => Cn D44 | D28 => Cn D45 | D29 => Cn D46 | D30 => Cn D47 | D31 => Cn D48 | D32 => Cn D49 | D33 => Cn D50 | D34 => Cn D51 | D35 => Cn D52 | D36 => Cn D53 | D37 => Cn D54 | D38 => Cn D55 | D39 => Cn D56 | D40 => Cn D57 | D41 => Cn D58 | D42 => Cn D59 | D43 => Cn D60 | D44 => Cn D61 | D45 => Cn D62 | D46 => Cn D63 | D47 => Cy D0 | D48 => Cy D1 | D49 => Cy D2 | D50 => Cy D3 | D51 => Cy D4 | D52 => Cy D5 | D53 => Cy D6 | D54 => Cy D7 | D55 => Cy D8 | D56 => Cy D9 | D57 => Cy D10 | D58 => Cy D11 | D59 => Cy D12 | D60 => Cy D13 | D61 => Cy D14 | D62 => Cy D15 | D63 => Cy D16 end
| D18 => match b with D0 => Cn D18 | D1 => Cn D19 | D2 => Cn D20 | D3 => Cn D21 | D4 => Cn D22 | D5 => Cn D23 | D6 => Cn D24 | D7 => Cn D25 | D8 => Cn D26 | D9 => Cn D27 | D10 => Cn D28 | D11 => Cn D29 | D12 => Cn D30 | D13 => Cn D31 | D14 => Cn D32 | D15 => Cn D33 | D16 => Cn D34 | D17 => Cn D35 | D18 => Cn D36 | D19 => Cn D37 | D20 => Cn D38 | D21 => Cn D39 | D22 => Cn D40 | D23 => Cn D41 | D24 => Cn D42 | D25 => Cn D43 | D26 => Cn D44 | D27 => Cn D45 | D28 => Cn D46 | D29 => Cn D47 | D30 => Cn D48 | D31 => Cn D49 | D32 => Cn D50 | D33 => Cn D51 | D34 => Cn D52 | D35 => Cn D53 | D36 => Cn D54 | D37 => Cn D55 | D38 => Cn D56 | D39 => Cn D57 | D40 => Cn D58 | D41 => Cn D59 | D42 => Cn D60 | D43 => Cn D61 | D44 => Cn D62 | D45 => Cn D63 | D46 => Cy D0 | D47 => Cy D1 | D48 => Cy D2 | D49 => Cy D3 | D50 => Cy D4 | D51 => Cy D5 | D52 => Cy D6 | D53 => Cy D7 | D54 => Cy D8 | D55 => Cy D9 | D56 => Cy D10 | D57 => Cy D11 | D58 => Cy D12 | D59 => Cy D13 | D60 => Cy D14 | D61 => Cy D15 | D62 => Cy D16 | D63 => Cy D17 end
| D19 => match b with D0 => Cn D19 | D1 => Cn D20 | D2 => Cn D21 | D3 => Cn D22 | D4 => Cn D23 | D5 => Cn D24 | D6 => Cn D25 | D7 => Cn D26 | D8 => Cn D27 | D9 => Cn D28 | D10 => Cn D29 | D11 => Cn D30 | D12 => Cn D31 | D13 => Cn D32 | D14 => Cn D33 | D15 => Cn D34 | D16 => Cn D35 | D17 => Cn D36 | D18 => Cn D37 | D19 => Cn D38 | D20 => Cn D39 | D21 => Cn D40 | D22 => Cn D41 | D23 => Cn D42 | D24 => Cn D43 | D25 => Cn D44 | D26 => Cn D45 | D27 => Cn D46 | D28 => Cn D47 | D29 => Cn D48 | D30 => Cn D49 | D31 => Cn D50 | D32 => Cn D51 | D33 => Cn D52 | D34 => Cn D53 | D35 => Cn D54 | D36 => Cn D55 | D37 => Cn D56 | D38 => Cn D57 | D39 => Cn D58 | D40 => Cn D59 | D41 => Cn D60 | D42 => Cn D61 | D43 => Cn D62 | D44 => Cn D63 | D45 => Cy D0 | D46 => Cy D1 | D47 => Cy D2 | D48 => Cy D3 | D49 => Cy D4 | D50 => Cy D5 | D51 => Cy D6 | D52 => Cy D7 | D53 => Cy D8 | D54 => Cy D9 | D55 => Cy D10 | D56 => Cy D11 | D57 => Cy D12 | D58 => Cy D13 | D59 => Cy D14 | D60 => Cy D15 | D61 => Cy D16 | D62 => Cy D17 | D63 => Cy D18 end
| D20 => match b with D0 => Cn D20 | D1 => Cn D21 | D2 => Cn D22 | D3 => Cn D23 | D4 => Cn D24 | D5 => Cn D25 | D6 => Cn D26 | D7 => Cn D27 | D8 => Cn D28 | D9 => Cn D29 | D10 => Cn D30 | D11 => Cn D31 | D12 => Cn D32 | D13 => Cn D33 | D14 => Cn D34 | D15 => Cn D35 | D16 => Cn D36 | D17 => Cn D37 | D18 => Cn D38 | D19 => Cn D39 | D20 => Cn D40 | D21 => Cn D41 | D22 => Cn D42 | D23 => Cn D43 | D24 => Cn D44 | D25 => Cn D45 | D26 => Cn D46 | D27 => Cn D47 | D28 => Cn D48 | D29 => Cn D49 | D30 => Cn D50 | D31 => Cn D51 | D32 => Cn D52 | D33 => Cn D53 | D34 => Cn D54 | D35 => Cn D55 | D36 => Cn D56 | D37 => Cn D57 | D38 => Cn D58 | D39 => Cn D59 | D40 => Cn D60 | D41 => Cn D61 | D42 => Cn D62 | D43 => Cn D63 | D44 => Cy D0 | D45 => Cy D1 | D46 => Cy D2 | D47 => Cy D3 | D48 => Cy D4 | D49 => Cy D5 | D50 => Cy D6 | D51 => Cy D7 | D52 => Cy D8 | D53 => Cy D9 | D54 => Cy D10 | D55 => Cy D11 | D56 => Cy D12 | D57 => Cy D13 | D58 => Cy D14 | D59 => Cy D15 | D60 => Cy D16 | D61 => Cy D17 | D62 => Cy D18 | D63 => Cy D19 end
| D21 => match b with D0 => Cn D21 | D1 => Cn D22 | D2 => Cn D23 | D3 => Cn D24 | D4 => Cn D25 | D5 => Cn D26 | D6 => Cn D27 | D7 => Cn D28 | D8 => Cn D29 | D9 => Cn D30 | D10 => Cn D31 | D11 => Cn D32 | D12 => Cn D33 | D13 => Cn D34 | D14 => Cn D35 | D15 => Cn D36 | D16 => Cn D37 | D17 => Cn D38 | D18 => Cn D39 | D19 => Cn D40 | D20 => Cn D41 | D21 => Cn D42 | D22 => Cn D43 | D23 => Cn D44 | D24 => Cn D45 | D25 => Cn D46 | D26 => Cn D47 | D27 => Cn D48 | D28 => Cn D49 | D29 => Cn D50 | D30 => Cn D51 | D31 => Cn D52 | D32 => Cn D53 | D33 => Cn D54 | D34 => Cn D55 | D35 => Cn D56 | D36 => Cn D57 | D37 => Cn D58 | D38 => Cn D59 | D39 => Cn D60 | D40 => Cn D61 | D41 => Cn D62 | D42 => Cn D63 | D43 => Cy D0 | D44 => Cy D1 | D45 => Cy D2 | D46 => Cy D3 | D47 => Cy D4 | D48 => Cy D5 | D49 => Cy D6 | D50 => Cy D7 | D51 => Cy D8 | D52 => Cy D9 | D53 => Cy D10 | D54 => Cy D11 | D55 => Cy D12 | D56 => Cy D13 | D57 => Cy D14 | D58 => Cy D15 | D59 => Cy D16 | D60 => Cy D17 | D61 => Cy D18 | D62 => Cy D19 | D63 => Cy D20 end
| D22 => match b with D0 => Cn D22 | D1 => Cn D23 | D2 => Cn D24 | D3 => Cn D25 | D4 => Cn D26 | D5 => Cn D27 | D6 => Cn D28 | D7 => Cn D29 | D8 => Cn D30 | D9 => Cn D31 | D10 => Cn D32 | D11 => Cn D33 | D12 => Cn D34 | D13 => Cn D35 | D14 => Cn D36 | D15 => Cn D37 | D16 => Cn D38 | D17 => Cn D39 | D18 => Cn D40 | D19 => Cn D41 | D20 => Cn D42 | D21 => Cn D43 | D22 => Cn D44 | D23 => Cn D45 | D24 => Cn D46 | D25 => Cn D47 | D26 => Cn D48 | D27 => Cn D49 | D28 => Cn D50 | D29 => Cn D51 | D30 => Cn D52 | D31 => Cn D53 | D32 => Cn D54 | D33 => Cn D55 | D34 => Cn D56 | D35 => Cn D57 | D36 => Cn D58 | D37 => Cn D59 | D38 => Cn D60 | D39 => Cn D61 | D40 => Cn D62 | D41 => Cn D63 | D42 => Cy D0 | D43 => Cy D1 | D44 => Cy D2 | D45 => Cy D3 | D46 => Cy D4 | D47 => Cy D5 | D48 => Cy D6 | D49 => Cy D7 | D50 => Cy D8 | D51 => Cy D9 | D52 => Cy D10 | D53 => Cy D11 | D54 => Cy D12 | D55 => Cy D13 | D56 => Cy D14 | D57 => Cy D15 | D58 => Cy D16 | D59 => Cy D17 | D60 => Cy D18 | D61 => Cy D19 | D62 => Cy D20 | D63 => Cy D21 end
| D23 => match b with D0 => Cn D23 | D1 => Cn D24 | D2 => Cn D25 | D3 => Cn D26 | D4 => Cn D27 | D5 => Cn D28 | D6 => Cn D29 | D7 => Cn D30 | D8 => Cn D31 | D9 => Cn D32 | D10 => Cn D33 | D11 => Cn D34 | D12 => Cn D35 | D13 => Cn D36 | D14 => Cn D37 | D15 => Cn D38 | D16 => Cn D39 | D17 => Cn D40 | D18 => Cn D41 | D19 => Cn D42 | D20 => Cn D43 | D21 => Cn D44 | D22 => Cn D45 | D23 => Cn D46 | D24 => Cn D47 | D25 => Cn D48 | D26 => Cn D49 | D27 => Cn D50 | D28 => Cn D51 | D29 => Cn D52 | D30 => Cn D53 | D31 => Cn D54 | D32 => Cn D55 | D33 => Cn D56 | D34 => Cn D57 | D35 => Cn D58 | D36 => Cn D59 | D37 => Cn D60 | D38 => Cn D61 | D39 => Cn D62 | D40 => Cn D63 | D41 => Cy D0 | D42 => Cy D1 | D43 => Cy D2 | D44 => Cy D3 | D45 => Cy D4 | D46 => Cy D5 | D47 => Cy D6 | D48 => Cy D7 | D49 => Cy D8 | D50 => Cy D9 | D51 => Cy D10 | D52 => Cy D11 | D53 => Cy D12 | D54 => Cy D13 | D55 => Cy D14 | D56 => Cy D15 | D57 => Cy D16 | D58 => Cy D17 | D59 => Cy D18 | D60 => Cy D19 | D61 => Cy D20 | D62 => Cy D21 | D63 => Cy D22 end
| D24 => match b with D0 => Cn D24 | D1 => Cn D25 | D2 => Cn D26 | D3 => Cn D27 | D4 => Cn D28 | D5 => Cn D29 | D6 => Cn D30 | D7 => Cn D31 | D8 => Cn D32 | D9 => Cn D33 | D10 => Cn D34 | D11 => Cn D35 | D12 => Cn D36 | D13 => Cn D37 | D14 => Cn D38 | D15 => Cn D39 | D16 => Cn D40 | D17 => Cn D41 | D18 => Cn D42 | D19 => Cn D43 | D20 => Cn D44 | D21 => Cn D45 | D22 => Cn D46 | D23 => Cn D47 | D24 => Cn D48 | D25 => Cn D49 | D26 => Cn D50 | D27 => Cn D51 | D28 => Cn D52 | D29 => Cn D53 | D30 => Cn D54 | D31 => Cn D55 | D32 => Cn D56 | D33 => Cn D57 | D34 => Cn D58 | D35 => Cn D59 | D36 => Cn D60 | D37 => Cn D61 | D38 => Cn D62 | D39 => Cn D63 | D40 => Cy D0 | D41 => Cy D1 | D42 => Cy D2 | D43 => Cy D3 | D44 => Cy D4 | D45 => Cy D5 | D46 => Cy D6 | D47 => Cy D7 | D48 => Cy D8 | D49 => Cy D9 | D50 => Cy D10 | D51 => Cy D11 | D52 => Cy D12 | D53 => Cy D13 | D54 => Cy D14 | D55 => Cy D15 | D56 => Cy D16 | D57 => Cy D17 | D58 => Cy D18 | D59 => Cy D19 | D60 => Cy D20 | D61 => Cy D21 | D62 => Cy D22 | D63 => Cy D23 end
| D25 => match b with D0 => Cn D25 | D1 => Cn D26 | D2 => Cn D27 | D3 => Cn D28 | D4 => Cn D29 | D5 => Cn D30 | D6 => Cn D31 | D7 => Cn D32 | D8 => Cn D33 | D9 => Cn D34 | D10 => Cn D35 | D11 => Cn D36 | D12 => Cn D37 | D13 => Cn D38 | D14 => Cn D39 | D15 => Cn D40 | D16 => Cn D41 | D17 => Cn D42 | D18 => Cn D43 | D19 => Cn D44 | D20 => Cn D45 | D21 => Cn D46 | D22 => Cn D47 | D23 => Cn D48 | D24 => Cn D49 | D25 => Cn D50 | D26 => Cn D51 | D27 => Cn D52 | D28 => Cn D53 | D29 => Cn D54 | D30 => Cn D55 | D31 => Cn D56 | D32 => Cn D57 | D33 => Cn D58 | D34 => Cn D59 | D35 => Cn D60 | D36 => Cn D61 | D37 => Cn D62 | D38 => Cn D63 | D39 => Cy D0 | D40 => Cy D1 | D41 => Cy D2 | D42 => Cy D3 | D43 => Cy D4 | D44 => Cy D5 | D45 => Cy D6 | D46 => Cy D7 | D47 => Cy D8 | D48 => Cy D9 | D49 => Cy D10 | D50 => Cy D11 | D51 => Cy D12 | D52 => Cy D13 | D53 => Cy D14 | D54 => Cy D15 | D55 => Cy D16 | D56 => Cy D17 | D57 => Cy D18 | D58 => Cy D19 | D59 => Cy D20 | D60 => Cy D21 | D61 => Cy D22 | D62 => Cy D23 | D63 => Cy D24 end
| D26 => match b with D0 => Cn D26 | D1 => Cn D27 | D2 => Cn D28 | D3 => Cn D29 | D4 => Cn D30 | D5 => Cn D31 | D6 => Cn D32 | D7 => Cn D33 | D8 => Cn D34 | D9 => Cn D35 | D10 => Cn D36 | D11 => Cn D37 | D12 => Cn D38 | D13 => Cn D39 | D14 => Cn D40 | D15 => Cn D41 | D16 => Cn D42 | D17 => Cn D43 | D18 => Cn D44 | D19 => Cn D45 | D20 => Cn D46 | D21 => Cn D47 | D22 => Cn D48 | D23 => Cn D49 | D24 => Cn D50 | D25 => Cn D51 | D26 => Cn D52 | D27 => Cn D53 | D28 => Cn D54 | D29 => Cn D55 | D30 => Cn D56 | D31 => Cn D57 | D32 => Cn D58 | D33 => Cn D59 | D34 => Cn D60 | D35 => Cn D61 | D36 => Cn D62 | D37 => Cn D63 | D38 => Cy D0 | D39 => Cy D1 | D40 => Cy D2 | D41 => Cy D3 | D42 => Cy D4 | D43 => Cy D5 | D44 => Cy D6 | D45 => Cy D7 | D46 => Cy D8 | D47 => Cy D9 | D48 => Cy D10 | D49 => Cy D11 | D50 => Cy D12 | D51 => Cy D13 | D52 => Cy D14 | D53 => Cy D15 | D54 => Cy D16 | D55 => Cy D17 | D56 => Cy D18 | D57 => Cy D19 | D58 => Cy D20 | D59 => Cy D21 | D60 => Cy D22 | D61 => Cy D23 | D62 => Cy D24 | D63 => Cy D25 end
| D27 => match b with D0 => Cn D27 | D1 => Cn D28 | D2 => Cn D29 | D3 => Cn D30 | D4 => Cn D31 | D5 => Cn D32 | D6 => Cn D33 | D7 => Cn D34 | D8 => Cn D35 | D9 => Cn D36 | D10 => Cn D37 | D11 => Cn D38 | D12 => Cn D39 | D13 => Cn D40 | D14 => Cn D41 | D15 => Cn D42 | D16 => Cn D43 | D17 => Cn D44 | D18 => Cn D45 | D19 => Cn D46 | D20 => Cn D47 | D21 => Cn D48 | D22 => Cn D49 | D23 => Cn D50 | D24 => Cn D51 | D25 => Cn D52 | D26 => Cn D53 | D27 => Cn D54 | D28 => Cn D55 | D29 => Cn D56 | D30 => Cn D57 | D31 => Cn D58 | D32 => Cn D59 | D33 => Cn D60 | D34 => Cn D61 | D35 => Cn D62 | D36 => Cn D63 | D37 => Cy D0 | D38 => Cy D1 | D39 => Cy D2 | D40 => Cy D3 | D41 => Cy D4 | D42 => Cy D5 | D43 => Cy D6 | D44 => Cy D7 | D45 => Cy D8 | D46 => Cy D9 | D47 => Cy D10 | D48 => Cy D11 | D49 => Cy D12 | D50 => Cy D13 | D51 => Cy D14 | D52 => Cy D15 | D53 => Cy D16 | D54 => Cy D17 | D55 => Cy D18 | D56 => Cy D19 | D57 => Cy D20 | D58 => Cy D21 | D59 => Cy D22 | D60 => Cy D23 | D61 => Cy D24 | D62 => Cy D25 | D63 => Cy D26 end
| D28 => match b with D0 => Cn D28 | D1 => Cn D29 | D2 => Cn D30 | D3 => Cn D31 | D4 => Cn D32 | D5 => Cn D33 | D6 => Cn D34 | D7 => Cn D35 | D8 => Cn D36 | D9 => Cn D37 | D10 => Cn D38 | D11 => Cn D39 | D12 => Cn D40 | D13 => Cn D41 | D14 => Cn D42 | D15 => Cn D43 | D16 => Cn D44 | D17 => Cn D45 | D18 => Cn D46 | D19 => Cn D47 | D20 => Cn D48 | D21 => Cn D49 | D22 => Cn D50 | D23 => Cn D51 | D24 => Cn D52 | D25 => Cn D53 | D26 => Cn D54 | D27 => Cn D55 | D28 => Cn D56 | D29 => Cn D57 | D30 => Cn D58 | D31 => Cn D59 | D32 => Cn D60 | D33 => Cn D61 | D34 => Cn D62 | D35 => Cn D63 | D36 => Cy D0 | D37 => Cy D1 | D38 => Cy D2 | D39 => Cy D3 | D40 => Cy D4 | D41 => Cy D5 | D42 => Cy D6 | D43 => Cy D7 | D44 => Cy D8 | D45 => Cy D9 | D46 => Cy D10 | D47 => Cy D11 | D48 => Cy D12 | D49 => Cy D13 | D50 => Cy D14 | D51 => Cy D15 | D52 => Cy D16 | D53 => Cy D17 | D54 => Cy D18 | D55 => Cy D19 | D56 => Cy D20 | D57 => Cy D21 | D58 => Cy D22 | D59 => Cy D23 | D60 => Cy D24 | D61 => Cy D25 | D62 => Cy D26 | D63 => Cy D27 end
| D29 => match b with D0 => Cn D29 | D1 => Cn D30 | D2 => Cn D31 | D3 => Cn D32 | D4 => Cn D33 | D5 => Cn D34 | D6 => Cn D35 | D7 => Cn D36 | D8 => Cn D37 | D9 => Cn D38 | D10 => Cn D39 | D11 => Cn D40 | D12 => Cn D41 | D13 => Cn D42 | D14 => Cn D43 | D15 => Cn D44 | D16 => Cn D45 | D17 => Cn D46 | D18 => Cn D47 | D19 => Cn D48 | D20 => Cn D49 | D21 => Cn D50 | D22 => Cn D51 | D23 => Cn D52 | D24 => Cn D53 | D25 => Cn D54 | D26 => Cn D55 | D27 => Cn D56 | D28 => Cn D57 | D29 => Cn D58 | D30 => Cn D59 | D31 => Cn D60 | D32 => Cn D61 | D33 => Cn D62 | D34 => Cn D63 | D35 => Cy D0 | D36 => Cy D1 | D37 => Cy D2 | D38 => Cy D3 | D39 => Cy D4 | D40 => Cy D5 | D41 => Cy D6 | D42 => Cy D7 | D43 => Cy D8 | D44 => Cy D9 | D45 => Cy D10 | D46 => Cy D11 | D47 => Cy D12 | D48 => Cy D13 | D49 => Cy D14 | D50 => Cy D15 | D51 => Cy D16 | D52 => Cy D17 | D53 => Cy D18 | D54 => Cy D19 | D55 => Cy D20 | D56 => Cy D21 | D57 => Cy D22 | D58 => Cy D23 | D59 => Cy D24 | D60 => Cy D25 | D61 => Cy D26 | D62 => Cy D27 | D63 => Cy D28 end
| D30 => match b with D0 => Cn D30 | D1 => Cn D31 | D2 => Cn D32 | D3 => Cn D33 | D4 => Cn D34 | D5 => Cn D35 | D6 => Cn D36 | D7 => Cn D37 | D8 => Cn D38 | D9 => Cn D39 | D10 => Cn D40 | D11 => Cn D41 | D12 => Cn D42 | D13 => Cn D43 | D14 => Cn D44 | D15 => Cn D45 | D16 => Cn D46 | D17 => Cn D47 | D18 => Cn D48 | D19 => Cn D49 | D20 => Cn D50 | D21 => Cn D51 | D22 => Cn D52 | D23 => Cn D53 | D24 => Cn D54 | D25 => Cn D55 | D26 => Cn D56 | D27 => Cn D57 | D28 => Cn D58 | D29 => Cn D59 | D30 => Cn D60 | D31 => Cn D61 | D32 => Cn D62 | D33 => Cn D63 | D34 => Cy D0 | D35 => Cy D1 | D36 => Cy D2 | D37 => Cy D3 | D38 => Cy D4 | D39 => Cy D5 | D40 => Cy D6 | D41 => Cy D7 | D42 => Cy D8 | D43 => Cy D9 | D44 => Cy D10 | D45 => Cy D11 | D46 => Cy D12 | D47 => Cy D13 | D48 => Cy D14 | D49 => Cy D15 | D50 => Cy D16 | D51 => Cy D17 | D52 => Cy D18 | D53 => Cy D19 | D54 => Cy D20 | D55 => Cy D21 | D56 => Cy D22 | D57 => Cy D23 | D58 => Cy D24 | D59 => Cy D25 | D60 => Cy D26 | D61 => Cy D27 | D62 => Cy D28 | D63 => Cy D29 end
| D31 => match b with D0 => Cn D31 | D1 => Cn D32 | D2 => Cn D33 | D3 => Cn D34 | D4 => Cn D35 | D5 => Cn D36 | D6 => Cn D37 | D7 => Cn D38 | D8 => Cn D39 | D9 => Cn D40 | D10 => Cn D41 | D11 => Cn D42 | D12 => Cn D43 | D13 => Cn D44 | D14 => Cn D45 | D15 => Cn D46 | D16 => Cn D47 | D17 => Cn D48 | D18 => Cn D49 | D19 => Cn D50 | D20 => Cn D51 | D21 => Cn D52 | D22 => Cn D53 | D23 => Cn D54 | D24 => Cn D55 | D25 => Cn D56 | D26 => Cn D57 | D27 => Cn D58 | D28 => Cn D59 | D29 => Cn D60 | D30 => Cn D61 | D31 => Cn D62 | D32 => Cn D63 | D33 => Cy D0 | D34 => Cy D1 | D35 => Cy D2 | D36 => Cy D3 | D37 => Cy D4 | D38 => Cy D5 | D39 => Cy D6 | D40 => Cy D7 | D41 => Cy D8 | D42 => Cy D9 | D43 => Cy D10 | D44 => Cy D11 | D45 => Cy D12 | D46 => Cy D13 | D47 => Cy D14 | D48 => Cy D15 | D49 => Cy D16 | D50 => Cy D17 | D51 => Cy D18 | D52 => Cy D19 | D53 => Cy D20 | D54 => Cy D21 | D55 => Cy D22 | D56 => Cy D23 | D57 => Cy D24 | D58 => Cy D25 | D59 => Cy D26 | D60 => Cy D27 | D61 => Cy D28 | D62 => Cy D29 | D63 => Cy D30 end
| D32 => match b with D0 => Cn D32 | D1 => Cn D33 | D2 => Cn D34 | D3 => Cn D35 | D4 => Cn D36 | D5 => Cn D37 | D6 => Cn D38 | D7 => Cn D39 | D8 => Cn D40 | D9 => Cn D41 | D10 => Cn D42 | D11 => Cn D43 | D12 => Cn D44 | D13 => Cn D45 | D14 => Cn D46 | D15 => Cn D47 | D16 => Cn D48 | D17 => Cn D49 | D18 => Cn D50 | D19 => Cn D51 | D20 => Cn D52 | D21 => Cn D53 | D22 => Cn D54 | D23 => Cn D55 | D24 => Cn D56 | D25 => Cn D57 | D26 => Cn D58 | D27 => Cn D59 | D28 => Cn D60 | D29 => Cn D61 | D30 => Cn D62 | D31 => Cn D63 | D32 => Cy D0 | D33 => Cy D1 | D34 => Cy D2 | D35 => Cy D3 | D36 => Cy D4 | D37 => Cy D5 | D38 => Cy D6 | D39 => Cy D7 | D40 => Cy D8 | D41 => Cy D9 | D42 => Cy D10 | D43 => Cy D11 | D44 => Cy D12 | D45 => Cy D13 | D46 => Cy D14 | D47 => Cy D15 | D48 => Cy D16 | D49 => Cy D17 | D50 => Cy D18 | D51 => Cy D19 | D52 => Cy D20 | D53 => Cy D21 | D54 => Cy D22 | D55 => Cy D23 | D56 => Cy D24 | D57 => Cy D25 | D58 => Cy D26 | D59 => Cy D27 | D60 => Cy D28 | D61 => Cy D29 | D62 => Cy D30 | D63 => Cy D31 end
| D33 => match b with D0 => Cn D33 | D1 => Cn D34 | D2 => Cn D35 | D3 => Cn D36 | D4 => Cn D37 | D5 => Cn D38 | D6 => Cn D39 | D7 => Cn D40 | D8 => Cn D41 | D9 => Cn D42 | D10 => Cn D43 | D11 => Cn D44 | D12 => Cn D45 | D13 => Cn D46 | D14 => Cn D47 | D15 => Cn D48 | D16 => Cn D49 | D17 => Cn D50 | D18 => Cn D51 | D19 => Cn D52 | D20 => Cn D53 | D21 => Cn D54 | D22 => Cn D55 | D23 => Cn D56 | D24 => Cn D57 | D25 => Cn D58 | D26 => Cn D59 | D27 => Cn D60 | D28 => Cn D61 | D29 => Cn D62 | D30 => Cn D63 | D31 => Cy D0 | D32 => Cy D1 | D33 => Cy D2 | D34 => Cy D3 | D35 => Cy D4 | D36 => Cy D5 | D37 => Cy D6 | D38 => Cy D7 | D39 => Cy D8 | D40 => Cy D9 | D41 => Cy D10 | D42 => Cy D11 | D43 => Cy D12 | D44 => Cy D13 | D45 => Cy D14 | D46 => Cy D15 | D47 => Cy D16 | D48 => Cy D17 | D49 => Cy D18 | D50 => Cy D19 | D51 => Cy D20 | D52 => Cy D21 | D53 => Cy D22 | D54 => Cy D23 | D55 => Cy D24 | D56 => Cy D25 | D57 => Cy D26 | D58 => Cy D27 | D59 => Cy D28 | D60 => Cy D29 | D61 => Cy D30 | D62 => Cy D31 | D63 => Cy D32 end
| D34 => match b with D0 => Cn D34 | D1 => Cn D35 | D2 => Cn D36 | D3 => Cn D37 | D4 => Cn D38 | D5 => Cn D39 | D6 => Cn D40 | D7 => Cn D41 | D8 => Cn D42 | D9 => Cn D43 | D10 => Cn D44 | D11 => Cn D45 | D12 => Cn D46 | D13 => Cn D47 | D14 => Cn D48 | D15 => Cn D49 | D16 => Cn D50 | D17 => Cn D51 | D18 => Cn D52 | D19 => Cn D53 | D20 => Cn D54 | D21 => Cn D55 | D22 => Cn D56 | D23 => Cn D57 | D24 => Cn D58 | D25 => Cn D59 | D26 => Cn D60 | D27 => Cn D61 | D28 => Cn D62 | D29 => Cn D63 | D30 => Cy D0 | D31 => Cy D1 | D32 => Cy D2 | D33 => Cy D3 | D34 => Cy D4 | D35 => Cy D5 | D36 => Cy D6 | D37 => Cy D7 | D38 => Cy D8 | D39 => Cy D9 | D40 => Cy D10 | D41 => Cy D11 | D42 => Cy D12 | D43 => Cy D13 | D44 => Cy D14 | D45 => Cy D15 | D46 => Cy D16 | D47 => Cy D17 | D48 => Cy D18 | D49 => Cy D19 | D50 => Cy D20 | D51 => Cy D21 | D52 => Cy D22 | D53 => Cy D23 | D54 => Cy D24 | D55 => Cy D25 | D56 => Cy D26 | D57 => Cy D27 | D58 => Cy D28 | D59 => Cy D29 | D60 => Cy D30 | D61 => Cy D31 | D62 => Cy D32 | D63 => Cy D33 end
| D35 => match b with D0 => Cn D35 | D1 => Cn D36 | D2 => Cn D37 | D3 => Cn D38 | D4 => Cn D39 | D5 => Cn D40 | D6 => Cn D41 | D7 => Cn D42 | D8 => Cn D43 | D9 => Cn D44 | D10 => Cn D45 | D11 => Cn D46 | D12 => Cn D47 | D13 => Cn D48 | D14 => Cn D49 | D15 => Cn D50 | D16 => Cn D51 | D17 => Cn D52 | D18 => Cn D53 | D19 => Cn D54 | D20 => Cn D55 | D21 => Cn D56 | D22 => Cn D57 | D23 => Cn D58 | D24 => Cn D59 | D25 => Cn D60 | D26 => Cn D61 | D27 => Cn D62 | D28 => Cn D63 | D29 => Cy D0 | D30 => Cy D1 | D31 => Cy D2 | D32 => Cy D3 | D33 => Cy D4 | D34 => Cy D5 | D35 => Cy D6 | D36 => Cy D7 | D37 => Cy D8 | D38 => Cy D9 | D39 => Cy D10 | D40 => Cy D11 | D41 => Cy D12 | D42 => Cy D13 | D43 => Cy D14 | D44 => Cy D15 | D45 => Cy D16 | D46 => Cy D17 | D47 => Cy D18 | D48 => Cy D19 | D49 => Cy D20 | D50 => Cy D21 | D51 => Cy D22 | D52 => Cy D23 | D53 => Cy D24 | D54 => Cy D25 | D55 => Cy D26 | D56 => Cy D27 | D57 => Cy D28 | D58 => Cy D29 | D59 => Cy D30 | D60 => Cy D31 | D61 => Cy D32 | D62 => Cy D33 | D63 => Cy D34 end
| D36 => match b with D0 => Cn D36 | D1 => Cn D37 | D2 => Cn D38 | D3 => Cn D39 | D4 => Cn D40 | D5 => Cn D41 | D6 => Cn D42 | D7 => Cn D43 | D8 => Cn D44 | D9 => Cn D45 | D10 => Cn D46 | D11 => Cn D47 | D12 => Cn D48 | D13 => Cn D49 | D14 => Cn D50 | D15 => Cn D51 | D16 => Cn D52 | D17 => Cn D53 | D18 => Cn D54 | D19 => Cn D55 | D20 => Cn D56 | D21 => Cn D57 | D22 => Cn D58 | D23 => Cn D59 | D24 => Cn D60 | D25 => Cn D61 | D26 => Cn D62 | D27 => Cn D63 | D28 => Cy D0 | D29 => Cy D1 | D30 => Cy D2 | D31 => Cy D3 | D32 => Cy D4 | D33 => Cy D5 | D34 => Cy D6 | D35 => Cy D7 | D36 => Cy D8 | D37 => Cy D9 | D38 => Cy D10 | D39 => Cy D11 | D40 => Cy D12 | D41 => Cy D13 | D42 => Cy D14 | D43 => Cy D15 | D44 => Cy D16 | D45 => Cy D17 | D46 => Cy D18 | D47 => Cy D19 | D48 => Cy D20 | D49 => Cy D21 | D50 => Cy D22 | D51 => Cy D23 | D52 => Cy D24 | D53 => Cy D25 | D54 => Cy D26 | D55 => Cy D27 | D56 => Cy D28 | D57 => Cy D29 | D58 => Cy D30 | D59 => Cy D31 | D60 => Cy D32 | D61 => Cy D33 | D62 => Cy D34 | D63 => Cy D35 end
| D37 => match b with D0 => Cn D37 | D1 => Cn D38 | D2 => Cn D39 | D3 => Cn D40 | D4 => Cn D41 | D5 => Cn D42 | D6 => Cn D43 | D7 => Cn D44 | D8 => Cn D45 | D9 => Cn D46 | D10 => Cn D47 | D11 => Cn D48 | D12 => Cn D49 | D13 => Cn D50 | D14 => Cn D51 | D15 => Cn D52 | D16 => Cn D53 | D17 => Cn D54 | D18 => Cn D55 | D19 => Cn D56 | D20 => Cn D57 | D21 => Cn D58 | D22 => Cn D59 | D23 => Cn D60 | D24 => Cn D61 | D25 => Cn D62 | D26 => Cn D63 | D27 => Cy D0 | D28 => Cy D1 | D29 => Cy D2 | D30 => Cy D3 | D31 => Cy D4 | D32 => Cy D5 | D33 => Cy D6 | D34 => Cy D7 | D35 => Cy D8 | D36 => Cy D9 | D37 => Cy D10 | D38 => Cy D11 | D39 => Cy D12 | D40 => Cy D13 | D41 => Cy D14 | D42 => Cy D15 | D43 => Cy D16 | D44 => Cy D17 | D45 => Cy D18 | D46 => Cy D19 | D47 => Cy D20 | D48 => Cy D21 | D49 => Cy D22 | D50 => Cy D23 | D51 => Cy D24 | D52 => Cy D25 | D53 => Cy D26 | D54 => Cy D27 | D55 => Cy D28 | D56 => Cy D29 | D57 => Cy D30 | D58 => Cy D31 | D59 => Cy D32 | D60 => Cy D33 | D61 => Cy D34 | D62 => Cy D35 | D63 => Cy D36 end
| D38 => match b with D0 => Cn D38 | D1 => Cn D39 | D2 => Cn D40 | D3 => Cn D41 | D4 => Cn D42 | D5 => Cn D43 | D6 => Cn D44 | D7 => Cn D45 | D8 => Cn D46 | D9 => Cn D47 | D10 => Cn D48 | D11 => Cn D49 | D12 => Cn D50 | D13 => Cn D51 | D14 => Cn D52 | D15 => Cn D53 | D16 => Cn D54 | D17 => Cn D55 | D18 => Cn D56 | D19 => Cn D57 | D20 => Cn D58 | D21 => Cn D59 | D22 => Cn D60 | D23 => Cn D61 | D24 => Cn D62 | D25 => Cn D63 | D26 => Cy D0 | D27 => Cy D1 | D28 => Cy D2 | D29 => Cy D3 | D30 => Cy D4 | D31 => Cy D5 | D32 => Cy D6 | D33 => Cy D7 | D34 => Cy D8 | D35 => Cy D9 | D36 => Cy D10 | D37 => Cy D11 | D38 => Cy D12 | D39 => Cy D13 | D40 => Cy D14 | D41 => Cy D15 | D42 => Cy D16 | D43 => Cy D17 | D44 => Cy D18 | D45 => Cy D19 | D46 => Cy D20 | D47 => Cy D21 | D48 => Cy D22 | D49 => Cy D23 | D50 => Cy D24 | D51 => Cy D25 | D52 => Cy D26 | D53 => Cy D27 | D54 => Cy D28 | D55 => Cy D29 | D56 => Cy D30 | D57 => Cy D31 | D58 => Cy D32 | D59 => Cy D33 | D60 => Cy D34 | D61 => Cy D35 | D62 => Cy D36 | D63 => Cy D37 end
| D39 => match b with D0 => Cn D39 | D1 => Cn D40 | D2 => Cn D41 | D3 => Cn D42 | D4 => Cn D43 | D5 => Cn D44 | D6 => Cn D45 | D7 => Cn D46 | D8 => Cn D47 | D9 => Cn D48 | D10 => Cn D49 | D11 => Cn D50 | D12 => Cn D51 | D13 => Cn D52 | D14 => Cn D53 | D15 => Cn D54 | D16 => Cn D55 | D17 => Cn D56 | D18 => Cn D57 | D19 => Cn D58 | D20 => Cn D59 | D21 => Cn D60 | D22 => Cn D61 | D23 => Cn D62 | D24 => Cn D63 | D25 => Cy D0 | D26 => Cy D1 | D27 => Cy D2 | D28 => Cy D3 | D29 => Cy D4 | D30 => Cy D5 | D31 => Cy D6 | D32 => Cy D7 | D33 => Cy D8 | D34 => Cy D9 | D35 => Cy D10 | D36 => Cy D11 | D37 => Cy D12 | D38 => Cy D13 | D39 => Cy D14 | D40 => Cy D15 | D41 => Cy D16 | D42 => Cy D17 | D43 => Cy D18 | D44 => Cy D19 | D45 => Cy D20 | D46 => Cy D21 | D47 => Cy D22 | D48 => Cy D23 | D49 => Cy D24 | D50 => Cy D25 | D51 => Cy D26 | D52 => Cy D27 | D53 => Cy D28 | D54 => Cy D29 | D55 => Cy D30 | D56 => Cy D31 | D57 => Cy D32 | D58 => Cy D33 | D59 => Cy D34 | D60 => Cy D35 | D61 => Cy D36 | D62 => Cy D37 | D63 => Cy D38 end
| D40 => match b with D0 => Cn D40 | D1 => Cn D41 | D2 => Cn D42 | D3 => Cn D43 | D4 => Cn D44 | D5 => Cn D45 | D6 => Cn D46 | D7 => Cn D47 | D8 => Cn D48 | D9 => Cn D49 | D10 => Cn D50 | D11 => Cn D51 | D12 => Cn D52 | D13 => Cn D53 | D14 => Cn D54 | D15 => Cn D55 | D16 => Cn D56 | D17 => Cn D57 | D18 => Cn D58 | D19 => Cn D59 | D20 => Cn D60 | D21 => Cn D61 | D22 => Cn D62 | D23 => Cn D63 | D24 => Cy D0 | D25 => Cy D1 | D26 => Cy D2 | D27 => Cy D3 | D28 => Cy D4 | D29 => Cy D5 | D30 => Cy D6 | D31 => Cy D7 | D32 => Cy D8 | D33 => Cy D9 | D34 => Cy D10 | D35 => Cy D11 | D36 => Cy D12 | D37 => Cy D13 | D38 => Cy D14 | D39 => Cy D15 | D40 => Cy D16 | D41 => Cy D17 | D42 => Cy D18 | D43 => Cy D19 | D44 => Cy D20 | D45 => Cy D21 | D46 => Cy D22 | D47 => Cy D23 | D48 => Cy D24 | D49 => Cy D25 | D50 => Cy D26 | D51 => Cy D27 | D52 => Cy D28 | D53 => Cy D29 | D54 => Cy D30 | D55 => Cy D31 | D56 => Cy D32 | D57 => Cy D33 | D58 => Cy D34 | D59 => Cy D35 | D60 => Cy D36 | D61 => Cy D37 | D62 => Cy D38 | D63 => Cy D39 end
| D41 => match b with D0 => Cn D41 | D1 => Cn D42 | D2 => Cn D43 | D3 => Cn D44 | D4 => Cn D45 | D5 => Cn D46 | D6 => Cn D47 | D7 => Cn D48 | D8 => Cn D49 | D9 => Cn D50 | D10 => Cn D51 | D11 => Cn D52 | D12 => Cn D53 | D13 => Cn D54 | D14 => Cn D55 | D15 => Cn D56 | D16 => Cn D57 | D17 => Cn D58 | D18 => Cn D59 | D19 => Cn D60 | D20 => Cn D61 | D21 => Cn D62 | D22 => Cn D63 | D23 => Cy D0 | D24 => Cy D1 | D25 => Cy D2 | D26 => Cy D3 | D27 => Cy D4 | D28 => Cy D5 | D29 => Cy D6 | D30 => Cy D7 | D31 => Cy D8 | D32 => Cy D9 | D33 => Cy D10 | D34 => Cy D11 | D35 => Cy D12 | D36 => Cy D13 | D37 => Cy D14 | D38 => Cy D15 | D39 => Cy D16 | D40 => Cy D17 | D41 => Cy D18 | D42 => Cy D19 | D43 => Cy D20 | D44 => Cy D21 | D45 => Cy D22 | D46 => Cy D23 | D47 => Cy D24 | D48 => Cy D25 | D49 => Cy D26 | D50 => Cy D27 | D51 => Cy D28 | D52 => Cy D29 | D53 => Cy D30 | D54 => Cy D31 | D55 => Cy D32 | D56 => Cy D33 | D57 => Cy D34 | D58 => Cy D35 | D59 => Cy D36 | D60 => Cy D37 | D61 => Cy D38 | D62 => Cy D39 | D63 => Cy D40 end
| D42 => match b with D0 => Cn D42 | D1 => Cn D43 | D2 => Cn D44 | D3 => Cn D45 | D4 => Cn D46 | D5 => Cn D47 | D6 => Cn D48 | D7 => Cn D49 | D8 => Cn D50 | D9 => Cn D51 | D10 => Cn D52 | D11 => Cn D53 | D12 => Cn D54 | D13 => Cn D55 | D14 => Cn D56 | D15 => Cn D57 | D16 => Cn D58 | D17 => Cn D59 | D18 => Cn D60 | D19 => Cn D61 | D20 => Cn D62 | D21 => Cn D63 | D22 => Cy D0 | D23 => Cy D1 | D24 => Cy D2 | D25 => Cy D3 | D26 => Cy D4 | D27 => Cy D5 | D28 => Cy D6 | D29 => Cy D7 | D30 => Cy D8 | D31 => Cy D9 | D32 => Cy D10 | D33 => Cy D11 | D34 => Cy D12 | D35 => Cy D13 | D36 => Cy D14 | D37 => Cy D15 | D38 => Cy D16 | D39 => Cy D17 | D40 => Cy D18 | D41 => Cy D19 | D42 => Cy D20 | D43 => Cy D21 | D44 => Cy D22 | D45 => Cy D23 | D46 => Cy D24 | D47 => Cy D25 | D48 => Cy D26 | D49 => Cy D27 | D50 => Cy D28 | D51 => Cy D29 | D52 => Cy D30 | D53 => Cy D31 | D54 => Cy D32 | D55 => Cy D33 | D56 => Cy D34 | D57 => Cy D35 | D58 => Cy D36 | D59 => Cy D37 | D60 => Cy D38 | D61 => Cy D39 | D62 => Cy D40 | D63 => Cy D41 end
| D43 => match b with D0 => Cn D43 | D1 => Cn D44 | D2 => Cn D45 | D3 => Cn D46 | D4 => Cn D47 | D5 => Cn D48 | D6 => Cn D49 | D7 => Cn D50 | D8 => Cn D51 | D9 => Cn D52 | D10 => Cn D53 | D11 => Cn D54 | D12 => Cn D55 | D13 => Cn D56 | D14 => Cn D57 | D15 => Cn D58 | D16 => Cn D59 | D17 => Cn D60 | D18 => Cn D61 | D19 => Cn D62 | D20 => Cn D63 | D21 => Cy D0 | D22 => Cy D1 | D23 => Cy D2 | D24 => Cy D3 | D25 => Cy D4 | D26 => Cy D5 | D27 => Cy D6 | D28 => Cy D7 | D29 => Cy D8 | D30 => Cy D9 | D31 => Cy D10 | D32 => Cy D11 | D33 => Cy D12 | D34 => Cy D13 | D35 => Cy D14 | D36 => Cy D15 | D37 => Cy D16 | D38 => Cy D17 | D39 => Cy D18 | D40 => Cy D19 | D41 => Cy D20 | D42 => Cy D21 | D43 => Cy D22 | D44 => Cy D23 | D45 => Cy D24 | D46 => Cy D25 | D47 => Cy D26 | D48 => Cy D27 | D49 => Cy D28 | D50 => Cy D29 | D51 => Cy D30 | D52 => Cy D31 | D53 => Cy D32 | D54 => Cy D33 | D55 => Cy D34 | D56 => Cy D35 | D57 => Cy D36 | D58 => Cy D37 | D59 => Cy D38 | D60 => Cy D39 | D61 => Cy D40 | D62 => Cy D41 | D63 => Cy D42 end
| D44 => match b with D0 => Cn D44 | D1 => Cn D45 | D2 => Cn D46 | D3 => Cn D47 | D4 => Cn D48 | D5 => Cn D49 | D6 => Cn D50 | D7 => Cn D51 | D8 => Cn D52 | D9 => Cn D53 | D10 => Cn D54 | D11 => Cn D55 | D12 => Cn D56 | D13 => Cn D57 | D14 => Cn D58 | D15 => Cn D59 | D16 => Cn D60 | D17 => Cn D61 | D18 => Cn D62 | D19 => Cn D63 | D20 => Cy D0 | D21 => Cy D1 | D22 => Cy D2 | D23 => Cy D3 | D24 => Cy D4 | D25 => Cy D5 | D26 => Cy D6 | D27 => Cy D7 | D28 => Cy D8 | D29 => Cy D9 | D30 => Cy D10 | D31 => Cy D11 | D32 => Cy D12 | D33 => Cy D13 | D34 => Cy D14 | D35 => Cy D15 | D36 => Cy D16 | D37 => Cy D17 | D38 => Cy D18 | D39 => Cy D19 | D40 => Cy D20 | D41 => Cy D21 | D42 => Cy D22 | D43 => Cy D23 | D44 => Cy D24 | D45 => Cy D25 | D46 => Cy D26 | D47 => Cy D27 | D48 => Cy D28 | D49 => Cy D29 | D50 => Cy D30 | D51 => Cy D31 | D52 => Cy D32 | D53 => Cy D33 | D54 => Cy D34 | D55 => Cy D35 | D56 => Cy D36 | D57 => Cy D37 | D58 => Cy D38 | D59 => Cy D39 | D60 => Cy D40 | D61 => Cy D41 | D62 => Cy D42 | D63 => Cy D43 end
| D45 => match b with D0 => Cn D45 | D1 => Cn D46 | D2 => Cn D47 | D3 => Cn D48 | D4 => Cn D49 | D5 => Cn D50 | D6 => Cn D51 | D7 => Cn D52 | D8 => Cn D53 | D9 => Cn D54 | D10 => Cn D55 | D11 => Cn D56 | D12 => Cn D57 | D13 => Cn D58 | D14 => Cn D59 | D15 => Cn D60 | D16 => Cn D61 | D17 => Cn D62 | D18 => Cn D63 | D19 => Cy D0 | D20 => Cy D1 | D21 => Cy D2 | D22 => Cy D3 | D23 => Cy D4 | D24 => Cy D5 | D25 => Cy D6 | D26 => Cy D7 | D27 => Cy D8 | D28 => Cy D9 | D29 => Cy D10 | D30 => Cy D11 | D31 => Cy D12 | D32 => Cy D13 | D33 => Cy D14 | D34 => Cy D15 | D35 => Cy D16 | D36 => Cy D17 | D37 => Cy D18 | D38 => Cy D19 | D39 => Cy D20 | D40 => Cy D21 | D41 => Cy D22 | D42 => Cy D23 | D43 => Cy D24 | D44 => Cy D25 | D45 => Cy D26 | D46 => Cy D27 | D47 => Cy D28 | D48 => Cy D29 | D49 => Cy D30 | D50 => Cy D31 | D51 => Cy D32 | D52 => Cy D33 | D53 => Cy D34 | D54 => Cy D35 | D55 => Cy D36 | D56 => Cy D37 | D57 => Cy D38 | D58 => Cy D39 | D59 => Cy D40 | D60 => Cy D41 | D61 => Cy D42 | D62 => Cy D43 | D63 => Cy D44 end
| D46 => match b with D0 => Cn D46 | D1 => Cn D47 | D2 => Cn D48 | D3 => Cn D49 | D4 => Cn D50 | D5 => Cn D51 | D6 => Cn D52 | D7 => Cn D53 | D8 => Cn D54 | D9 => Cn D55 | D10 => Cn D56 | D11 => Cn D57 | D12 => Cn D58 | D13 => Cn D59 | D14 => Cn D60 | D15 => Cn D61 | D16 => Cn D62 | D17 => Cn D63 | D18 => Cy D0 | D19 => Cy D1 | D20 => Cy D2 | D21 => Cy D3 | D22 => Cy D4 | D23 => Cy D5 | D24 => Cy D6 | D25 => Cy D7 | D26 => Cy D8 | D27 => Cy D9 | D28 => Cy D10 | D29 => Cy D11 | D30 => Cy D12 | D31 => Cy D13 | D32 => Cy D14 | D33 => Cy D15 | D34 => Cy D16 | D35 => Cy D17 | D36 => Cy D18 | D37 => Cy D19 | D38 => Cy D20 | D39 => Cy D21 | D40 => Cy D22 | D41 => Cy D23 | D42 => Cy D24 | D43 => Cy D25 | D44 => Cy D26 | D45 => Cy D27 | D46 => Cy D28 | D47 => Cy D29 | D48 => Cy D30 | D49 => Cy D31 | D50 => Cy D32 | D51 => Cy D33 | D52 => Cy D34 | D53 => Cy D35 | D54 => Cy D36 | D55 => Cy D37 | D56 => Cy D38 | D57 => Cy D39 | D58 => Cy D40 | D59 => Cy D41 | D60 => Cy D42 | D61 => Cy D43 | D62 => Cy D44 | D63 => Cy D45 end
| D47 => match b with D0 => Cn D47 | D1 => Cn D48 | D2 => Cn D49 | D3 => Cn D50 | D4 => Cn D51 | D5 => Cn D52 | D6 => Cn D53 | D7 => Cn D54 | D8 => Cn D55 | D9 => Cn D56 | D10 => Cn D57 | D11 => Cn D58 | D12 => Cn D59 | D13 => Cn D60 | D14 => Cn D61 | D15 => Cn D62 | D16 => Cn D63 | D17 => Cy D0 | D18 => Cy D1 | D19 => Cy D2 | D20 => Cy D3 | D21 => Cy D4 | D22 => Cy D5 | D23 => Cy D6 | D24 => Cy D7 | D25 => Cy D8 | D26 => Cy D9 | D27 => Cy D10 | D28 => Cy D11 | D29 => Cy D12 | D30 => Cy D13 | D31 => Cy D14 | D32 => Cy D15 | D33 => Cy D16 | D34 => Cy D17 | D35 => Cy D18 | D36 => Cy D19 | D37 => Cy D20 | D38 => Cy D21 | D39 => Cy D22 | D40 => Cy D23 | D41 => Cy D24 | D42 => Cy D25 | D43 => Cy D26 | D44 => Cy D27 | D45 => Cy D28 | D46 => Cy D29 | D47 => Cy D30 | D48 => Cy D31 | D49 => Cy D32 | D50 => Cy D33 | D51 => Cy D34 | D52 => Cy D35 | D53 => Cy D36 | D54 => Cy D37 | D55 => Cy D38 | D56 => Cy D39 | D57 => Cy D40 | D58 => Cy D41 | D59 => Cy D42 | D60 => Cy D43 | D61 => Cy D44 | D62 => Cy D45 | D63 => Cy D46 end
| D48 => match b with D0 => Cn D48 | D1 => Cn D49 | D2 => Cn D50 | D3 => Cn D51 | D4 => Cn D52 | D5 => Cn D53 | D6 => Cn D54 | D7 => Cn D55 | D8 => Cn D56 | D9 => Cn D57 | D10 => Cn D58 | D11 => Cn D59 | D12 => Cn D60 | D13 => Cn D61 | D14 => Cn D62 | D15 => Cn D63 | D16 => Cy D0 | D17 => Cy D1 | D18 => Cy D2 | D19 => Cy D3 | D20 => Cy D4 | D21 => Cy D5 | D22 => Cy D6 | D23 => Cy D7 | D24 => Cy D8 | D25 => Cy D9 | D26 => Cy D10 | D27 => Cy D11 | D28 => Cy D12 | D29 => Cy D13 | D30 => Cy D14 | D31 => Cy D15 | D32 => Cy D16 | D33 => Cy D17 | D34 => Cy D18 | D35 => Cy D19 | D36 => Cy D20 | D37 => Cy D21 | D38 => Cy D22 | D39 => Cy D23 | D40 => Cy D24 | D41 => Cy D25 | D42 => Cy D26 | D43 => Cy D27 | D44 => Cy D28 | D45 => Cy D29 | D46 => Cy D30 | D47 => Cy D31 | D48 => Cy D32 | D49 => Cy D33 | D50 => Cy D34 | D51 => Cy D35 | D52 => Cy D36 | D53 => Cy D37 | D54 => Cy D38 | D55 => Cy D39 | D56 => Cy D40 | D57 => Cy D41 | D58 => Cy D42 | D59 => Cy D43 | D60 => Cy D44 | D61 => Cy D45 | D62 => Cy D46 | D63 => Cy D47 end
| D49 => match b with D0 => Cn D49 | D1 => Cn D50 | D2 => Cn D51 | D3 => Cn D52 | D4 => Cn D53 | D5 => Cn D54 | D6 => Cn D55 | D7 => Cn D56 | D8 => Cn D57 | D9 => Cn D58 | D10 => Cn D59 | D11 => Cn D60 | D12 => Cn D61 | D13 => Cn D62 | D14 => Cn D63 | D15 => Cy D0 | D16 => Cy D1 | D17 => Cy D2 | D18 => Cy D3 | D19 => Cy D4 | D20 => Cy D5 | D21 => Cy D6 | D22 => Cy D7 | D23 => Cy D8 | D24 => Cy D9 | D25 => Cy D10 | D26 => Cy D11 | D27 => Cy D12 | D28 => Cy D13 | D29 => Cy D14 | D30 => Cy D15 | D31 => Cy D16 | D32 => Cy D17 | D33 => Cy D18 | D34 => Cy D19 | D35 => Cy D20 | D36 => Cy D21 | D37 => Cy D22 | D38 => Cy D23 | D39 => Cy D24 | D40 => Cy D25 | D41 => Cy D26 | D42 => Cy D27 | D43 => Cy D28 | D44 => Cy D29 | D45 => Cy D30 | D46 => Cy D31 | D47 => Cy D32 | D48 => Cy D33 | D49 => Cy D34 | D50 => Cy D35 | D51 => Cy D36 | D52 => Cy D37 | D53 => Cy D38 | D54 => Cy D39 | D55 => Cy D40 | D56 => Cy D41 | D57 => Cy D42 | D58 => Cy D43 | D59 => Cy D44 | D60 => Cy D45 | D61 => Cy D46 | D62 => Cy D47 | D63 => Cy D48 end
| D50 => match b with D0 => Cn D50 | D1 => Cn D51 | D2 => Cn D52 | D3 => Cn D53 | D4 => Cn D54 | D5 => Cn D55 | D6 => Cn D56 | D7 => Cn D57 | D8 => Cn D58 | D9 => Cn D59 | D10 => Cn D60 | D11 => Cn D61 | D12 => Cn D62 | D13 => Cn D63 | D14 => Cy D0 | D15 => Cy D1 | D16 => Cy D2 | D17 => Cy D3 | D18 => Cy D4 | D19 => Cy D5 | D20 => Cy D6 | D21 => Cy D7 | D22 => Cy D8 | D23 => Cy D9 | D24 => Cy D10 | D25 => Cy D11 | D26 => Cy D12 | D27 => Cy D13 | D28 => Cy D14 | D29 => Cy D15 | D30 => Cy D16 | D31 => Cy D17 | D32 => Cy D18 | D33 => Cy D19 | D34 => Cy D20 | D35 => Cy D21 | D36 => Cy D22 | D37 => Cy D23 | D38 => Cy D24 | D39 => Cy D25 | D40 => Cy D26 | D41 => Cy D27 | D42 => Cy D28 | D43 => Cy D29 | D44 => Cy D30 | D45 => Cy D31 | D46 => Cy D32 | D47 => Cy D33 | D48 => Cy D34 | D49 => Cy D35 | D50 => Cy D36 | D51 => Cy D37 | D52 => Cy D38 | D53 => Cy D39 | D54 => Cy D40 | D55 => Cy D41 | D56 => Cy D42 | D57 => Cy D43 | D58 => Cy D44 | D59 => Cy D45 | D60 => Cy D46 | D61 => Cy D47 | D62 => Cy D48 | D63 => Cy D49 end
| D51 => match b with D0 => Cn D51 | D1 => Cn D52 | D2 => Cn D53 | D3 => Cn D54 | D4 => Cn D55 | D5 => Cn D56 | D6 => Cn D57 | D7 => Cn D58 | D8 => Cn D59 | D9 => Cn D60 | D10 => Cn D61 | D11 => Cn D62 | D12 => Cn D63 | D13 => Cy D0 | D14 => Cy D1 | D15 => Cy D2 | D16 => Cy D3 | D17 => Cy D4 | D18 => Cy D5 | D19 => Cy D6 | D20 => Cy D7 | D21 => Cy D8 | D22 => Cy D9 | D23 => Cy D10 | D24 => Cy D11 | D25 => Cy D12 | D26 => Cy D13 | D27 => Cy D14 | D28 => Cy D15 | D29 => Cy D16 | D30 => Cy D17 | D31 => Cy D18 | D32 => Cy D19 | D33 => Cy D20 | D34 => Cy D21 | D35 => Cy D22 | D36 => Cy D23 | D37 => Cy D24 | D38 => Cy D25 | D39 => Cy D26 | D40 => Cy D27 | D41 => Cy D28 | D42 => Cy D29 | D43 => Cy D30 | D44 => Cy D31 | D45 => Cy D32 | D46 => Cy D33 | D47 => Cy D34 | D48 => Cy D35 | D49 => Cy D36 | D50 => Cy D37 | D51 => Cy D38 | D52 => Cy D39 | D53 => Cy D40 | D54 => Cy D41 | D55 => Cy D42 | D56 => Cy D43 | D57 => Cy D44 | D58 => Cy D45 | D59 => Cy D46 | D60 => Cy D47 | D61 => Cy D48 | D62 => Cy D49 | D63 => Cy D50 end
| D52 => match b with D0 => Cn D52 | D1 => Cn D53 | D2 => Cn D54 | D3 => Cn D55 | D4 => Cn D56 | D5 => Cn D57 | D6 => Cn D58 | D7 => Cn D59 | D8 => Cn D60 | D9 => Cn D61 | D10 => Cn D62 | D11 => Cn D63 | D12 => Cy D0 | D13 => Cy D1 | D14 => Cy D2 | D15 => Cy D3 | D16 => Cy D4 | D17 => Cy D5 | D18 => Cy D6 | D19 => Cy D7 | D20 => Cy D8 | D21 => Cy D9 | D22 => Cy D10 | D23 => Cy D11 | D24 => Cy D12 | D25 => Cy D13 | D26 => Cy D14 | D27 => Cy D15 | D28 => Cy D16 | D29 => Cy D17 | D30 => Cy D18 | D31 => Cy D19 | D32 => Cy D20 | D33 => Cy D21 | D34 => Cy D22 | D35 => Cy D23 | D36 => Cy D24 | D37 => Cy D25 | D38 => Cy D26 | D39 => Cy D27 | D40 => Cy D28 | D41 => Cy D29 | D42 => Cy D30 | D43 => Cy D31 | D44 => Cy D32 | D45 => Cy D33 | D46 => Cy D34 | D47 => Cy D35 | D48 => Cy D36 | D49 => Cy D37 | D50 => Cy D38 | D51 => Cy D39 | D52 => Cy D40 | D53 => Cy D41 | D54 => Cy D42 | D55 => Cy D43 | D56 => Cy D44 | D57 => Cy D45 | D58 => Cy D46 | D59 => Cy D47 | D60 => Cy D48 | D61 => Cy D49 | D62 => Cy D50 | D63 => Cy D51 end
| D53 => match b with D0 => Cn D53 | D1 => Cn D54 | D2 => Cn D55 | D3 => Cn D56 | D4 => Cn D57 | D5 => Cn D58 | D6 => Cn D59 | D7 => Cn D60 | D8 => Cn D61 | D9 => Cn D62 | D10 => Cn D63 | D11 => Cy D0 | D12 => Cy D1 | D13 => Cy D2 | D14 => Cy D3 | D15 => Cy D4 | D16 => Cy D5 | D17 => Cy D6 | D18 => Cy D7 | D19 => Cy D8 | D20 => Cy D9 | D21 => Cy D10 | D22 => Cy D11 | D23 => Cy D12 | D24 => Cy D13 | D25 => Cy D14 | D26 => Cy D15 | D27 => Cy D16 | D28 => Cy D17 | D29 => Cy D18 | D30 => Cy D19 | D31 => Cy D20 | D32 => Cy D21 | D33 => Cy D22 | D34 => Cy D23 | D35 => Cy D24 | D36 => Cy D25 | D37 => Cy D26 | D38 => Cy D27 | D39 => Cy D28 | D40 => Cy D29 | D41 => Cy D30 | D42 => Cy D31 | D43 => Cy D32 | D44 => Cy D33 | D45 => Cy D34 | D46 => Cy D35 | D47 => Cy D36 | D48 => Cy D37 | D49 => Cy D38 | D50 => Cy D39 | D51 => Cy D40 | D52 => Cy D41 | D53 => Cy D42 | D54 => Cy D43 | D55 => Cy D44 | D56 => Cy D45 | D57 => Cy D46 | D58 => Cy D47 | D59 => Cy D48 | D60 => Cy D49 | D61 => Cy D50 | D62 => Cy D51 | D63 => Cy D52 end
| D54 => match b with D0 => Cn D54 | D1 => Cn D55 | D2 => Cn D56 | D3 => Cn D57 | D4 => Cn D58 | D5 => Cn D59 | D6 => Cn D60 | D7 => Cn D61 | D8 => Cn D62 | D9 => Cn D63 | D10 => Cy D0 | D11 => Cy D1 | D12 => Cy D2 | D13 => Cy D3 | D14 => Cy D4 | D15 => Cy D5 | D16 => Cy D6 | D17 => Cy D7 | D18 => Cy D8 | D19 => Cy D9 | D20 => Cy D10 | D21 => Cy D11 | D22 => Cy D12 | D23 => Cy D13 | D24 => Cy D14 | D25 => Cy D15 | D26 => Cy D16 | D27 => Cy D17 | D28 => Cy D18 | D29 => Cy D19 | D30 => Cy D20 | D31 => Cy D21 | D32 => Cy D22 | D33 => Cy D23 | D34 => Cy D24 | D35 => Cy D25 | D36 => Cy D26 | D37 => Cy D27 | D38 => Cy D28 | D39 => Cy D29 | D40 => Cy D30 | D41 => Cy D31 | D42 => Cy D32 | D43 => Cy D33 | D44 => Cy D34 | D45 => Cy D35 | D46 => Cy D36 | D47 => Cy D37 | D48 => Cy D38 | D49 => Cy D39 | D50 => Cy D40 | D51 => Cy D41 | D52 => Cy D42 | D53 => Cy D43 | D54 => Cy D44 | D55 => Cy D45 | D56 => Cy D46 | D57 => Cy D47 | D58 => Cy D48 | D59 => Cy D49 | D60 => Cy D50 | D61 => Cy D51 | D62 => Cy D52 | D63 => Cy D53 end
| D55 => match b with D0 => Cn D55 | D1 => Cn D56 | D2 => Cn D57 | D3 => Cn D58 | D4 => Cn D59 | D5 => Cn D60 | D6 => Cn D61 | D7 => Cn D62 | D8 => Cn D63 | D9 => Cy D0 | D10 => Cy D1 | D11 => Cy D2 | D12 => Cy D3 | D13 => Cy D4 | D14 => Cy D5 | D15 => Cy D6 | D16 => Cy D7 | D17 => Cy D8 | D18 => Cy D9 | D19 => Cy D10 | D20 => Cy D11 | D21 => Cy D12 | D22 => Cy D13 | D23 => Cy D14 | D24 => Cy D15 | D25 => Cy D16 | D26 => Cy D17 | D27 => Cy D18 | D28 => Cy D19 | D29 => Cy D20 | D30 => Cy D21 | D31 => Cy D22 | D32 => Cy D23 | D33 => Cy D24 | D34 => Cy D25 | D35 => Cy D26 | D36 => Cy D27 | D37 => Cy D28 | D38 => Cy D29 | D39 => Cy D30 | D40 => Cy D31 | D41 => Cy D32 | D42 => Cy D33 | D43 => Cy D34 | D44 => Cy D35 | D45 => Cy D36 | D46 => Cy D37 | D47 => Cy D38 | D48 => Cy D39 | D49 => Cy D40 | D50 => Cy D41 | D51 => Cy D42 | D52 => Cy D43 | D53 => Cy D44 | D54 => Cy D45 | D55 => Cy D46 | D56 => Cy D47 | D57 => Cy D48 | D58 => Cy D49 | D59 => Cy D50 | D60 => Cy D51 | D61 => Cy D52 | D62 => Cy D53 | D63 => Cy D54 end
| D56 => match b with D0 => Cn D56 | D1 => Cn D57 | D2 => Cn D58 | D3 => Cn D59 | D4 => Cn D60 | D5 => Cn D61 | D6 => Cn D62 | D7 => Cn D63 | D8 => Cy D0 | D9 => Cy D1 | D10 => Cy D2 | D11 => Cy D3 | D12 => Cy D4 | D13 => Cy D5 | D14 => Cy D6 | D15 => Cy D7 | D16 => Cy D8 | D17 => Cy D9 | D18 => Cy D10 | D19 => Cy D11 | D20 => Cy D12 | D21 => Cy D13 | D22 => Cy D14 | D23 => Cy D15 | D24 => Cy D16 | D25 => Cy D17 | D26 => Cy D18 | D27 => Cy D19 | D28 => Cy D20 | D29 => Cy D21 | D30 => Cy D22 | D31 => Cy D23 | D32 => Cy D24 | D33 => Cy D25 | D34 => Cy D26 | D35 => Cy D27 | D36 => Cy D28 | D37 => Cy D29 | D38 => Cy D30 | D39 => Cy D31 | D40 => Cy D32 | D41 => Cy D33 | D42 => Cy D34 | D43 => Cy D35 | D44 => Cy D36 | D45 => Cy D37 | D46 => Cy D38 | D47 => Cy D39 | D48 => Cy D40 | D49 => Cy D41 | D50 => Cy D42 | D51 => Cy D43 | D52 => Cy D44 | D53 => Cy D45 | D54 => Cy D46 | D55 => Cy D47 | D56 => Cy D48 | D57 => Cy D49 | D58 => Cy D50 | D59 => Cy D51 | D60 => Cy D52 | D61 => Cy D53 | D62 => Cy D54 | D63 => Cy D55 end
| D57 => match b with D0 => Cn D57 | D1 => Cn D58 | D2 => Cn D59 | D3 => Cn D60 | D4 => Cn D61 | D5 => Cn D62 | D6 => Cn D63 | D7 => Cy D0 | D8 => Cy D1 | D9 => Cy D2 | D10 => Cy D3 | D11 => Cy D4 | D12 => Cy D5 | D13 => Cy D6 | D14 => Cy D7 | D15 => Cy D8 | D16 => Cy D9 | D17 => Cy D10 | D18 => Cy D11 | D19 => Cy D12 | D20 => Cy D13 | D21 => Cy D14 | D22 => Cy D15 | D23 => Cy D16 | D24 => Cy D17 | D25 => Cy D18 | D26 => Cy D19 | D27 => Cy D20 | D28 => Cy D21 | D29 => Cy D22 | D30 => Cy D23 | D31 => Cy D24 | D32 => Cy D25 | D33 => Cy D26 | D34 => Cy D27 | D35 => Cy D28 | D36 => Cy D29 | D37 => Cy D30 | D38 => Cy D31 | D39 => Cy D32 | D40 => Cy D33 | D41 => Cy D34 | D42 => Cy D35 | D43 => Cy D36 | D44 => Cy D37 | D45 => Cy D38 | D46 => Cy D39 | D47 => Cy D40 | D48 => Cy D41 | D49 => Cy D42 | D50 => Cy D43 | D51 => Cy D44 | D52 => Cy D45 | D53 => Cy D46 | D54 => Cy D47 | D55 => Cy D48 | D56 => Cy D49 | D57 => Cy D50 | D58 => Cy D51 | D59 => Cy D52 | D60 => Cy D53 | D61 => Cy D54 | D62 => Cy D55 | D63 => Cy D56 end
| D58 => match b with D0 => Cn D58 | D1 => Cn D59 | D2 => Cn D60 | D3 => Cn D61 | D4 => Cn D62 | D5 => Cn D63 | D6 => Cy D0 | D7 => Cy D1 | D8 => Cy D2 | D9 => Cy D3 | D10 => Cy D4 | D11 => Cy D5 | D12 => Cy D6 | D13 => Cy D7 | D14 => Cy D8 | D15 => Cy D9 | D16 => Cy D10 | D17 => Cy D11 | D18 => Cy D12 | D19 => Cy D13 | D20 => Cy D14 | D21 => Cy D15 | D22 => Cy D16 | D23 => Cy D17 | D24 => Cy D18 | D25 => Cy D19 | D26 => Cy D20 | D27 => Cy D21 | D28 => Cy D22 | D29 => Cy D23 | D30 => Cy D24 | D31 => Cy D25 | D32 => Cy D26 | D33 => Cy D27 | D34 => Cy D28 | D35 => Cy D29 | D36 => Cy D30 | D37 => Cy D31 | D38 => Cy D32 | D39 => Cy D33 | D40 => Cy D34 | D41 => Cy D35 | D42 => Cy D36 | D43 => Cy D37 | D44 => Cy D38 | D45 => Cy D39 | D46 => Cy D40 | D47 => Cy D41 | D48 => Cy D42 | D49 => Cy D43 | D50 => Cy D44 | D51 => Cy D45 | D52 => Cy D46 | D53 => Cy D47 | D54 => Cy D48 | D55 => Cy D49 | D56 => Cy D50 | D57 => Cy D51 | D58 => Cy D52 | D59 => Cy D53 | D60 => Cy D54 | D61 => Cy D55 | D62 => Cy D56 | D63 => Cy D57 end
| D59 => match b with D0 => Cn D59 | D1 => Cn D60 | D2 => Cn D61 | D3 => Cn D62 | D4 => Cn D63 | D5 => Cy D0 | D6 => Cy D1 | D7 => Cy D2 | D8 => Cy D3 | D9 => Cy D4 | D10 => Cy D5 | D11 => Cy D6 | D12 => Cy D7 | D13 => Cy D8 | D14 => Cy D9 | D15 => Cy D10 | D16 => Cy D11 | D17 => Cy D12 | D18 => Cy D13 | D19 => Cy D14 | D20 => Cy D15 | D21 => Cy D16 | D22 => Cy D17 | D23 => Cy D18 | D24 => Cy D19 | D25 => Cy D20 | D26 => Cy D21 | D27 => Cy D22 | D28 => Cy D23 | D29 => Cy D24 | D30 => Cy D25 | D31 => Cy D26 | D32 => Cy D27 | D33 => Cy D28 | D34 => Cy D29 | D35 => Cy D30 | D36 => Cy D31 | D37 => Cy D32 | D38 => Cy D33 | D39 => Cy D34 | D40 => Cy D35 | D41 => Cy D36 | D42 => Cy D37 | D43 => Cy D38 | D44 => Cy D39 | D45 => Cy D40 | D46 => Cy D41 | D47 => Cy D42 | D48 => Cy D43 | D49 => Cy D44 | D50 => Cy D45 | D51 => Cy D46 | D52 => Cy D47 | D53 => Cy D48 | D54 => Cy D49 | D55 => Cy D50 | D56 => Cy D51 | D57 => Cy D52 | D58 => Cy D53 | D59 => Cy D54 | D60 => Cy D55 | D61 => Cy D56 | D62 => Cy D57 | D63 => Cy D58 end
| D60 => match b with D0 => Cn D60 | D1 => Cn D61 | D2 => Cn D62 | D3 => Cn D63 | D4 => Cy D0 | D5 => Cy D1 | D6 => Cy D2 | D7 => Cy D3 | D8 => Cy D4 | D9 => Cy D5 | D10 => Cy D6 | D11 => Cy D7 | D12 => Cy D8 | D13 => Cy D9 | D14 => Cy D10 | D15 => Cy D11 | D16 => Cy D12 | D17 => Cy D13 | D18 => Cy D14 | D19 => Cy D15 | D20 => Cy D16 | D21 => Cy D17 | D22 => Cy D18 | D23 => Cy D19 | D24 => Cy D20 | D25 => Cy D21 | D26 => Cy D22 | D27 => Cy D23 | D28 => Cy D24 | D29 => Cy D25 | D30 => Cy D26 | D31 => Cy D27 | D32 => Cy D28 | D33 => Cy D29 | D34 => Cy D30 | D35 => Cy D31 | D36 => Cy D32 | D37 => Cy D33 | D38 => Cy D34 | D39 => Cy D35 | D40 => Cy D36 | D41 => Cy D37 | D42 => Cy D38 | D43 => Cy D39 | D44 => Cy D40 | D45 => Cy D41 | D46 => Cy D42 | D47 => Cy D43 | D48 => Cy D44 | D49 => Cy D45 | D50 => Cy D46 | D51 => Cy D47 | D52 => Cy D48 | D53 => Cy D49 | D54 => Cy D50 | D55 => Cy D51 | D56 => Cy D52 | D57 => Cy D53 | D58 => Cy D54 | D59 => Cy D55 | D60 => Cy D56 | D61 => Cy D57 | D62 => Cy D58 | D63 => Cy D59 end
| D61 => match b with D0 => Cn D61 | D1 => Cn D62 | D2 => Cn D63 | D3 => Cy D0 | D4 => Cy D1 | D5 => Cy D2 | D6 => Cy D3 | D7 => Cy D4 | D8 => Cy D5 | D9 => Cy D6 | D10 => Cy D7 | D11 => Cy D8 | D12 => Cy D9 | D13 => Cy D10 | D14 => Cy D11 | D15 => Cy D12 | D16 => Cy D13 | D17 => Cy D14 | D18 => Cy D15 | D19 => Cy D16 | D20 => Cy D17 | D21 => Cy D18 | D22 => Cy D19 | D23 => Cy D20 | D24 => Cy D21 | D25 => Cy D22 | D26 => Cy D23 | D27 => Cy D24 | D28 => Cy D25 | D29 => Cy D26 | D30 => Cy D27 | D31 => Cy D28 | D32 => Cy D29 | D33 => Cy D30 | D34 => Cy D31 | D35 => Cy D32 | D36 => Cy D33 | D37 => Cy D34 | D38 => Cy D35 | D39 => Cy D36 | D40 => Cy D37 | D41 => Cy D38 | D42 => Cy D39 | D43 => Cy D40 | D44 => Cy D41 | D45 => Cy D42 | D46 => Cy D43 | D47 => Cy D44 | D48 => Cy D45 | D49 => Cy D46 | D50 => Cy D47 | D51 => Cy D48 | D52 => Cy D49 | D53 => Cy D50 | D54 => Cy D51 | D55 => Cy D52 | D56 => Cy D53 | D57 => Cy D54 | D58 => Cy D55 | D59 => Cy D56 | D60 => Cy D57 | D61 => Cy D58 | D62 => Cy D59 | D63 => Cy D60 end
| D62 => match b with D0 => Cn D62 | D1 => Cn D63 | D2 => Cy D0 | D3 => Cy D1 | D4 => Cy D2 | D5 => Cy D3 | D6 => Cy D4 | D7 => Cy D5 | D8 => Cy D6 | D9 => Cy D7 | D10 => Cy D8 | D11 => Cy D9 | D12 => Cy D10 | D13 => Cy D11 | D14 => Cy D12 | D15 => Cy D13 | D16 => Cy D14 | D17 => Cy D15 | D18 => Cy D16 | D19 => Cy D17 | D20 => Cy D18 | D21 => Cy D19 | D22 => Cy D20 | D23 => Cy D21 | D24 => Cy D22 | D25 => Cy D23 | D26 => Cy D24 | D27 => Cy D25 | D28 => Cy D26 | D29 => Cy D27 | D30 => Cy D28 | D31 => Cy D29 | D32 => Cy D30 | D33 => Cy D31 | D34 => Cy D32 | D35 => Cy D33 | D36 => Cy D34 | D37 => Cy D35 | D38 => Cy D36 | D39 => Cy D37 | D40 => Cy D38 | D41 => Cy D39 | D42 => Cy D40 | D43 => Cy D41 | D44 => Cy D42 | D45 => Cy D43 | D46 => Cy D44 | D47 => Cy D45 | D48 => Cy D46 | D49 => Cy D47 | D50 => Cy D48 | D51 => Cy D49 | D52 => Cy D50 | D53 => Cy D51 | D54 => Cy D52 | D55 => Cy D53 | D56 => Cy D54 | D57 => Cy D55 | D58 => Cy D56 | D59 => Cy D57 | D60 => Cy D58 | D61 => Cy D59 | D62 => Cy D60 | D63 => Cy D61 end
| D63 => match b with D0 => Cn D63 | D1 => Cy D0 | D2 => Cy D1 | D3 => Cy D2 | D4 => Cy D3 | D5 => Cy D4 | D6 => Cy D5 | D7 => Cy D6 | D8 => Cy D7 | D9 => Cy D8 | D10 => Cy D9 | D11 => Cy D10 | D12 => Cy D11 | D13 => Cy D12 | D14 => Cy D13 | D15 => Cy D14 | D16 => Cy D15 | D17 => Cy D16 | D18 => Cy D17 | D19 => Cy D18 | D20 => Cy D19 | D21 => Cy D20 | D22 => Cy D21 | D23 => Cy D22 | D24 => Cy D23 | D25 => Cy D24 | D26 => Cy D25 | D27 => Cy D26 | D28 => Cy D27 | D29 => Cy D28 | D30 => Cy D29 | D31 => Cy D30 | D32 => Cy D31 | D33 => Cy D32 | D34 => Cy D33 | D35 => Cy D34 | D36 => Cy D35 | D37 => Cy D36 | D38 => Cy D37 | D39 => Cy D38 | D40 => Cy D39 | D41 => Cy D40 | D42 => Cy D41 | D43 => Cy D42 | D44 => Cy D43 | D45 => Cy D44 | D46 => Cy D45 | D47 => Cy D46 | D48 => Cy D47 | D49 => Cy D48 | D50 => Cy D49 | D51 => Cy D50 | D52 => Cy D51 | D53 => Cy D52 | D54 => Cy D53 | D55 => Cy D54 | D56 => Cy D55 | D57 => Cy D56 | D58 => Cy D57 | D59 => Cy D58 | D60 => Cy D59 | D61 => Cy D60 | D62 => Cy D61 | D63 => Cy D62 end
end.
Definition dinc (a : dg) : dg := match a with D0 => D1 | D1 => D2 | D2 => D3 | D3 => D4 | D4 => D5 | D5 => D6 | D6 => D7 | D7 => D8 | D8 => D9 | D9 => D10 | D10 => D11 | D11 => D12 | D12 => D13 | D13 => D14 | D14 => D15 | D15 => D16 | D16 => D17 | D17 => D18 | D18 => D19 | D19 => D20 | D20 => D21 | D21 => D22 | D22 => D23 | D23 => D24 | D24 => D25 | D25 => D26 | D26 => D27 | D27 => D28 | D28 => D29 | D29 => D30 | D30 => D31 | D31 => D32 | D32 => D33 | D33 => D34 | D34 => D35 | D35 => D36 | D36 => D37 | D37 => D38 | D38 => D39 | D39 => D40 | D40 => D41 | D41 => D42 | D42 => D43 | D43 => D44 | D44 => D45 | D45 => D46 | D46 => D47 | D47 => D48 | D48 => D49 | D49 => D50 | D50 => D51 | D51 => D52 | D52 => D53 | D53 => D54 | D54 => D55 | D55 => D56 | D56 => D57 | D57 => D58 | D58 => D59 | D59 => D60 | D60 => D61 | D61 => D62 | D62 => D63 | D63 => D0 end.
Definition all_digits : list dg := [D0; D1; D2; D3; D4; D5; D6; D7; D8; D9; D10; D11; D12; D13; D14; D15; D16; D17; D18; D19; D20; D21; D22; D23; D24; D25; D26; D27; D28; D29; D30; D31; D32; D33; D34; D35; D36; D37; D38; D39; D40; D41; D42; D43; D44; D45; D46; D47; D48; D49; D50; D51; D52; D53; D54; D55; D56; D57; D58; D59; D60; D61; D62; D63].
Fixpoint todig (p : positive) : list dg := match p with xI p => match p with xI p => match p with xI p => match p with xI p => match p with xI p => match p with xI p => D63 :: todig p | xO p => D31 :: todig p | xH => [D63] end | xO p => match p with xI p => D47 :: todig p | xO p => D15 :: todig p | xH => [D47] end | xH => [D31] end | xO p => match p with xI p => match p with xI p => D55 :: todig p | xO p => D23 :: todig p | xH => [D55] end | xO p => match p with xI p => D39 :: todig p | xO p => D7 :: todig p | xH => [D39] end | xH => [D23] end | xH => [D15] end | xO p => match p with xI p => match p with xI p => match p with xI p => D59 :: todig p | xO p => D27 :: todig p | xH => [D59] end | xO p => match p with xI p => D43 :: todig p | xO p => D11 :: todig p | xH => [D43] end | xH => [D27] end | xO p => match p with xI p => match p with xI p => D51 :: todig p | xO p => D19 :: todig p | xH => [D51] end | xO p => match p with xI p => D35 :: todig p | xO p => D3 :: todig p | xH => [D35] end | xH => [D19] end | xH => [D11] end | xH => [D7] end | xO p => match p with xI p => match p with xI p => match p with xI p => match p with xI p => D61 :: todig p | xO p => D29 :: todig p | xH => [D61] end | xO p => match p with xI p => D45 :: todig p | xO p => D13 :: todig p | xH => [D45] end | xH => [D29] end | xO p => match p with xI p => match p with xI p => D53 :: todig p | xO p => D21 :: todig p | xH => [D53] end | xO p => match p with xI p => D37 :: todig p | xO p => D5 :: todig p | xH => [D37] end | xH => [D21] end | xH => [D13] end | xO p => match p with xI p => match p with xI p => match p with xI p => D57 :: todig p | xO p => D25 :: todig p | xH => [D57] end | xO p => match p with xI p => D41 :: todig p | xO p => D9 :: todig p | xH => [D41] end | xH => [D25] end | xO p => match p with xI p => match p with xI p => D49 :: todig p | xO p => D17 :: todig p | xH => [D49] end | xO p => match p with xI p => D33 :: todig p | xO p => D1 :: todig p | xH => [D33] end | xH => [D17] end | xH => [D9] end | xH => [D5] end | xH => [D3] end | xO p => match p with xI p => match p with xI p => match p with xI p => match p with xI p => match p with xI p => D62 :: todig p | xO p => D30 :: todig p | xH => [D62] end | xO p => match p with xI p => D46 :: todig p | xO p => D14 :: todig p | xH => [D46] end | xH => [D30] end | xO p => match p with xI p => match p with xI p => D54 :: todig p | xO p => D22 :: todig p | xH => [D54] end | xO p => match p with xI p => D38 :: todig p | xO p => D6 :: todig p | xH => [D38] end | xH => [D22] end | xH => [D14] end | xO p => match p with xI p => match p with xI p => match p with xI p => D58 :: todig p | xO p => D26 :: todig p | xH => [D58] end | xO p => match p with xI p => D42 :: todig p | xO p => D10 :: todig p | xH => [D42] end | xH => [D26] end | xO p => match p with xI p => match p with xI p => D50 :: todig p | xO p => D18 :: todig p | xH => [D50] end | xO p => match p with xI p => D34 :: todig p | xO p => D2 :: todig p | xH => [D34] end | xH => [D18] end | xH => [D10] end | xH => [D6] end | xO p => match p with xI p => match p with xI p => match p with xI p => match p with xI p => D60 :: todig p | xO p => D28 :: todig p | xH => [D60] end | xO p => match p with xI p => D44 :: todig p | xO p => D12 :: todig p | xH => [D44] end | xH => [D28] end | xO p => match p with xI p => match p with xI p => D52 :: todig p | xO p => D20 :: todig p | xH => [D52] end | xO p => match p with xI p => D36 :: todig p | xO p => D4 :: todig p | xH => [D36] end | xH => [D20] end | xH => [D12] end | xO p => match p with xI p => match p with xI p => match p with xI p => D56 :: todig p | xO p => D24 :: todig p | xH => [D56] end | xO p => match p with xI p => D40 :: todig p | xO p => D8 :: todig p | xH => [D40] end | xH => [D24] end | xO p => match p with xI p => match p with xI p => D48 :: todig p | xO p => D16 :: todig p | xH => [D48] end | xO p => match p with xI p => D32 :: todig p | xO p => D0 :: todig p | xH => [D32] end | xH => [D16] end | xH => [D8] end | xH => [D4] end | xH => [D2] end | xH => [D1] end.
Fixpoint lval (l : list dg) : Z := match l with [] => 0 | d :: l => 64 * lval l + dval d end.

Lemma all_in a : In a all_digits.
Proof. destruct a; cbn; tauto. Qed.
Definition mul_check (a b : dg) : bool := match dmul a b with Pr h l => dval a * dval b =? 64 * dval h + dval l end.
Definition add_check (a b : dg) : bool :=
  match dadd a b with Cn s => dval a + dval b =? dval s | Cy s => dval a + dval b =? 64 + dval s end.
Lemma check2 (f : dg -> dg -> bool) : forallb (fun a => forallb (f a) all_digits) all_digits = true -> forall a b, f a b = true.
Proof.
  intros H a b. rewrite forallb_forall in H. specialize (H a (all_in a)). rewrite forallb_forall in H. exact (H b (all_in b)).
Qed.
Lemma mul_checked : forallb (fun a => forallb (mul_check a) all_digits) all_digits = true. Proof. vm_cast_no_check (eq_refl true). Qed.
Lemma add_checked : forallb (fun a => forallb (add_check a) all_digits) all_digits = true. Proof. vm_cast_no_check (eq_refl true). Qed.
Lemma dmul_ok a b h l : dmul a b = Pr h l -> dval a * dval b = 64 * dval h + dval l.
Proof. intros E. pose proof (check2 _ mul_checked a b) as C. unfold mul_check in C. rewrite E in C. apply Z.eqb_eq, C. Qed.
Lemma dadd_ok a b : match dadd a b with Cn s => dval a + dval b = dval s | Cy s => dval a + dval b = 64 + dval s end.
Proof. pose proof (check2 _ add_checked a b) as C. unfold add_check in C. destruct (dadd a b); apply Z.eqb_eq, C. Qed.
Lemma dval_range a : 0 <= dval a <= 63. Proof. destruct a; cbn; lia. Qed.
Lemma dinc_ok a : dval a < 63 -> dval (dinc a) = dval a + 1.
Proof. destruct a; cbn; intros H; try reflexivity. lia. Qed.

(** [d * b + acc + c], digit by digit; [f] multiplies by the fixed digit. *)
Section Row.
Variable f : dg -> pr.
Fixpoint row (b acc : list dg) (c : dg) : list dg :=
  match b with
  | [] => [c]
  | x :: b =>
      match acc with
      | [] => []
      | a :: acc =>
          match f x with Pr hi lo =>
          match dadd lo a with
          | Cn s => match dadd s c with Cn s => s :: row b acc hi | Cy s => s :: row b acc (dinc hi) end
          | Cy s => match dadd s c with Cn s => s :: row b acc (dinc hi) | Cy s => s :: row b acc (dinc (dinc hi)) end
          end end
      end
  end.
End Row.
Lemma row_len d : forall b acc c, length acc = length b -> length (row (dmul d) b acc c) = S (length b).
Proof.
  induction b as [|x b IH]; intros [|a acc] c H; try (cbn in H; lia); [reflexivity|]. cbn [row]. destruct (dmul d x) as [hi lo].
  cbn in H. destruct (dadd lo a) as [s|s]; destruct (dadd s c) as [s'|s']; cbn [length]; rewrite IH; lia.
Qed.
Lemma row_ok d : forall b acc c, length acc = length b -> lval (row (dmul d) b acc c) = dval d * lval b + lval acc + dval c.
Proof.
  induction b as [|x b IH]; intros [|a acc] c H; try (cbn in H; lia); [cbn [row lval]; lia|]. cbn [row]. destruct (dmul d x) as [hi lo] eqn:E.
  apply dmul_ok in E. pose proof (dval_range d). pose proof (dval_range x). pose proof (dval_range a). pose proof (dval_range c).
  pose proof (dval_range lo). pose proof (dval_range hi). cbn in H. assert (M : 64 * dval hi + dval lo <= 63 * 63) by nia.
  pose proof (dadd_ok lo a) as A1. destruct (dadd lo a) as [s|s]; pose proof (dadd_ok s c) as A2; destruct (dadd s c) as [s'|s'];
    pose proof (dval_range s'); cbn [lval]; rewrite IH by lia.
  - lia.
  - rewrite dinc_ok by lia. lia.
  - rewrite dinc_ok by lia. lia.
  - assert (dval (dinc hi) = dval hi + 1) as I1 by (apply dinc_ok; lia). rewrite dinc_ok by lia. lia.
Qed.
(** [a * b + acc]. *)
Fixpoint mulr (a b acc : list dg) : list dg :=
  match a with
  | [] => acc
  | x :: a => match row (dmul x) b acc D0 with [] => [] | l :: r => l :: mulr a b r end
  end.
Lemma mulr_ok : forall a b acc, length acc = length b -> lval (mulr a b acc) = lval a * lval b + lval acc.
Proof.
  induction a as [|x a IH]; intros b acc H; [cbn [mulr lval]; lia|]. cbn [mulr]. pose proof (row_len x b acc D0 H) as L. pose proof (row_ok x b acc D0 H) as V.
  destruct (row (dmul x) b acc D0) as [|l r]; [discriminate L|]. cbn [length] in L. cbn [lval] in V |- *. rewrite IH by lia. cbn [dval] in V. lia.
Qed.
Lemma todig_ok : forall p, lval (todig p) = Zpos p.
Proof.
  fix IH 1. intros p.
  destruct p as [p|p|]; [| |reflexivity]; (destruct p as [p|p|]; [| |reflexivity]); (destruct p as [p|p|]; [| |reflexivity]);
  (destruct p as [p|p|]; [| |reflexivity]); (destruct p as [p|p|]; [| |reflexivity]); (destruct p as [p|p|]; [| |reflexivity]);
  cbn [todig lval dval]; rewrite IH; lia.
Qed.
Definition zeros (l : list dg) : list dg := map (fun _ => D0) l.
Lemma zeros_len l : length (zeros l) = length l. Proof. apply map_length. Qed.
Lemma zeros_val l : lval (zeros l) = 0. Proof. induction l as [|x l IH]; [reflexivity|]. unfold zeros in *. cbn [map lval dval]. rewrite IH. reflexivity. Qed.
Definition pmul (a b : positive) : Z := let y := todig b in lval (mulr (todig a) y (zeros y)).
Lemma pmul_ok a b : pmul a b = Zpos a * Zpos b.
Proof. unfold pmul. cbv zeta. rewrite mulr_ok by apply zeros_len. rewrite zeros_val, !todig_ok. lia. Qed.
Definition fmul (a b : Z) : Z :=
  match a, b with
  | Z0, _ => 0 | _, Z0 => 0
  | Zpos a, Zpos b => pmul a b | Zneg a, Zneg b => pmul a b
  | Zpos a, Zneg b => - pmul a b | Zneg a, Zpos b => - pmul a b
  end.
Theorem fmul_ok a b : fmul a b = a * b.
Proof. destruct a, b; cbn [fmul]; rewrite ?pmul_ok; lia. Qed.

(** Montgomery reduction: [x] plus a multiple of the modulus, divided by [64^n].  [q] are the digits of the
    modulus, [ninv] times the modulus is -1 modulo 64. *)
Section Redc.
Variables (q : list dg) (ninv : dg).
Fixpoint redl (n : nat) (acc : list dg) : list dg :=
  match n with
  | O => acc
  | S n =>
      match acc with
      | [] => []
      | a :: _ => match dmul a ninv with Pr _ m =>
          match row (dmul m) q acc D0 with [] => [] | _ :: r => redl n r end end
      end
  end.
Variable Q : Z.
Hypothesis q_val : lval q = Q.
Hypothesis ninv_ok : (dval ninv * Q + 1) mod 64 = 0.
Hypothesis q_ne : q <> [].
Lemma redl_ok : forall n acc, length acc = length q -> exists k, lval (redl n acc) * 64 ^ Z.of_nat n = lval acc + k * Q.
Proof.
  induction n as [|n IH]; intros acc H; [exists 0; cbn [redl Z.of_nat Z.pow]; lia|]. destruct acc as [|a acc]; [destruct q; [contradiction|discriminate H]|]. cbn [redl].
  destruct (dmul a ninv) as [h m] eqn:E. apply dmul_ok in E. set (w := a :: acc) in *.
  pose proof (row_len m q w D0 H) as L. pose proof (row_ok m q w D0 H) as V. destruct (row (dmul m) q w D0) as [|l r]; [discriminate L|].
  cbn [length] in L. cbn [lval] in V. change (dval D0) with 0 in V. rewrite q_val in V.
  assert (Z0 : dval l = 0).
  { pose proof (dval_range l). assert (D : dval l mod 64 = 0); [|rewrite Z.mod_small in D by lia; exact D].
    replace (dval l) with (dval m * Q + lval w - 64 * lval r) by lia. unfold w. cbn [lval].
    replace (dval m) with (dval a * dval ninv - 64 * dval h) by lia.
    replace ((dval a * dval ninv - 64 * dval h) * Q + (64 * lval acc + dval a) - 64 * lval r) with (dval a * (dval ninv * Q + 1) + (lval acc - dval h * Q - lval r) * 64) by ring.
    rewrite Z.mod_add by lia. rewrite Z.mul_mod, ninv_ok, Z.mul_0_r by lia. reflexivity. }
  destruct (IH r) as [k K]; [lia|]. exists (k * 64 + dval m). rewrite Nat2Z.inj_succ, Z.pow_succ_r by lia.
  transitivity (64 * (lval (redl n r) * 64 ^ Z.of_nat n)); [ring|]. rewrite K. lia.
Qed.
Fixpoint split_at (n : nat) (l : list dg) : list dg * list dg :=
  match n with
  | O => ([], l)
  | S n => match l with
           | [] => let '(u, v) := split_at n [] in (D0 :: u, v)
           | x :: l => let '(u, v) := split_at n l in (x :: u, v)
           end
  end.
Lemma split_ok : forall n l, let '(u, v) := split_at n l in length u = n /\ lval l = lval u + 64 ^ Z.of_nat n * lval v.
Proof.
  induction n as [|n IH]; intros l; [cbn [split_at lval length Z.of_nat Z.pow]; split; [reflexivity|lia]|].
  destruct l as [|x l]; cbn [split_at].
  - specialize (IH []). destruct (split_at n []) as [u v]. destruct IH as [L V]. cbn [length lval] in *. split; [lia|].
    rewrite Nat2Z.inj_succ, Z.pow_succ_r by lia. change (dval D0) with 0. lia.
  - specialize (IH l). destruct (split_at n l) as [u v]. destruct IH as [L V]. cbn [length lval] in *. split; [lia|].
    rewrite Nat2Z.inj_succ, Z.pow_succ_r by lia. rewrite V. ring.
Qed.
Definition predc (p : positive) : Z := let '(u, v) := split_at (length q) (todig p) in lval (redl (length q) u) + lval v.
Lemma predc_ok p : exists k, predc p * 64 ^ Z.of_nat (length q) = Zpos p + k * Q.
Proof.
  unfold predc. pose proof (split_ok (length q) (todig p)) as S. destruct (split_at (length q) (todig p)) as [u v]. destruct S as [L V].
  destruct (redl_ok (length q) u L) as [k K]. exists k. rewrite <- (todig_ok p), V, Z.mul_add_distr_r, K. ring.
Qed.
Definition redc (x : Z) : Z := match x with Z0 => 0 | Zpos p => predc p | Zneg p => - predc p end.
Theorem redc_ok x : exists k, redc x * 64 ^ Z.of_nat (length q) = x + k * Q.
Proof.
  destruct x as [|p|p]; cbn [redc].
  - exists 0. lia.
  - apply predc_ok.
  - destruct (predc_ok p) as [k K]. exists (- k). rewrite Z.mul_opp_l, K. lia.
Qed.
End Redc.
