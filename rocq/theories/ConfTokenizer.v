(** Conformance of the tokenizer model with the expectations of /repo/tests/test_tokenizer.py.
    Generated by tools/mkconf_tokenizer.py. These are tests of the model, not theorems about it. *)
From Coq Require Import List NArith Bool.
From Verif Require Import PyBase Regex MTokenizer.
Import ListNotations.
Local Open Scope N_scope.

Definition tokenizer_cases : list (str * list str) := [
  ([87; 101; 108; 108; 44; 32; 104; 101; 32; 115; 97; 105; 100; 32; 3898; 49; 3899], [[87; 101; 108; 108]; [44]; [104; 101]; [115; 97; 105; 100]; [3898; 49; 3899]]);
  ([10629; 49; 10630; 32; 87; 101; 108; 108; 44; 32; 104; 101; 32; 115; 97; 105; 100; 32; 3898; 49; 3899], [[10629; 49; 10630]; [87; 101; 108; 108]; [44]; [104; 101]; [115; 97; 105; 100]; [3898; 49; 3899]]);
  ([73; 32; 99; 97; 110; 110; 111; 116; 32; 100; 111; 32; 116; 104; 97; 116; 46], [[73]; [99; 97; 110]; [110; 111; 116]; [100; 111]; [116; 104; 97; 116]; [46]]);
  ([67; 97; 110; 110; 111; 116; 32; 100; 111; 32; 116; 104; 97; 116; 33], [[67; 97; 110]; [110; 111; 116]; [100; 111]; [116; 104; 97; 116]; [33]]);
  ([100; 111; 109; 97; 105; 110; 46; 99; 111; 109], [[100; 111; 109; 97; 105; 110; 46; 99; 111; 109]]);
  ([67; 101; 108; 108; 117; 99; 111; 114; 46; 99; 111; 109], [[67; 101; 108; 108; 117; 99; 111; 114; 46; 99; 111; 109]]);
  ([68; 79; 77; 65; 73; 78; 46; 67; 79; 77], [[68; 79; 77; 65; 73; 78; 46; 67; 79; 77]]);
  ([115; 117; 98; 46; 100; 111; 109; 97; 105; 110; 46; 99; 111; 109; 46; 97; 117], [[115; 117; 98; 46; 100; 111; 109; 97; 105; 110; 46; 99; 111; 109; 46; 97; 117]]);
  ([115; 117; 98; 46; 100; 111; 109; 97; 105; 110; 49; 50; 51; 46; 99; 111; 109; 46; 97; 117], [[115; 117; 98; 46; 100; 111; 109; 97; 105; 110; 49; 50; 51; 46; 99; 111; 109; 46; 97; 117]]);
  ([100; 97; 116; 97; 64; 117; 110; 105; 99; 101; 102; 46; 111; 114; 103; 46; 97; 117], [[100; 97; 116; 97; 64; 117; 110; 105; 99; 101; 102; 46; 111; 114; 103; 46; 97; 117]]);
  ([109; 114; 46; 97; 105; 100; 64; 117; 110; 105; 99; 101; 102; 50; 49; 46; 111; 114; 103; 46; 97; 117], [[109; 114; 46; 97; 105; 100; 64; 117; 110; 105; 99; 101; 102; 50; 49; 46; 111; 114; 103; 46; 97; 117]]);
  ([116; 97; 99; 111; 115; 46; 112; 105; 99; 46; 116; 119; 105; 116; 116; 101; 114; 46; 99; 111; 109; 47; 81; 52; 117; 115; 103; 122; 71; 77; 72; 113], [[116; 97; 99; 111; 115; 46; 112; 105; 99; 46; 116; 119; 105; 116; 116; 101; 114; 46; 99; 111; 109; 47; 81; 52; 117; 115; 103; 122; 71; 77; 72; 113]]);
  ([97; 46], [[97; 46]]);
  ([46; 101; 110; 100], [[46; 101; 110; 100]]);
  ([46; 69; 110; 100], [[46; 69; 110; 100]]);
  ([49; 46], [[49]; [46]]);
  ([46; 49; 49], [[46; 49; 49]]);
  ([49; 46; 100; 101; 108; 105; 118; 101; 114], [[49; 46; 100; 101; 108; 105; 118; 101; 114]]);
  ([49; 46; 68; 101; 108; 105; 118; 101; 114], [[49; 46; 68; 101; 108; 105; 118; 101; 114]]);
  ([100; 101; 108; 105; 118; 101; 114; 46; 49], [[100; 101; 108; 105; 118; 101; 114; 46; 49]]);
  ([100; 101; 108; 105; 118; 101; 82; 46; 49], [[100; 101; 108; 105; 118; 101; 82; 46; 49]]);
  ([46; 100; 101; 108; 105; 118; 101; 114], [[46; 100; 101; 108; 105; 118; 101; 114]]);
  ([46; 68; 101; 108; 105; 118; 101; 114], [[46; 68; 101; 108; 105; 118; 101; 114]]);
  ([97; 97; 97; 46; 100; 101; 108; 105; 118; 101; 114], [[97; 97; 97; 46; 100; 101; 108; 105; 118; 101; 114]]);
  ([97; 97; 65; 46; 68; 101; 108; 105; 118; 101; 114], [[97; 97; 65; 46; 68; 101; 108; 105; 118; 101; 114]]);
  ([36; 49; 46; 51; 77], [[36; 49; 46; 51; 77]]);
  ([49; 46; 49], [[49; 46; 49]]);
  ([49; 50; 51; 46; 49; 50; 51], [[49; 50; 51; 46; 49; 50; 51]]);
  ([49; 50; 51; 46; 49; 50; 51; 46; 49], [[49; 50; 51; 46; 49; 50; 51; 46; 49]]);
  ([49; 46; 49; 46; 49; 46; 49], [[49; 46; 49; 46; 49; 46; 49]]);
  ([65; 46; 66; 46; 49; 46; 67], [[65; 46; 66; 46; 49; 46; 67]]);
  ([65; 46; 66; 46; 67], [[65; 46; 66; 46; 67]]);
  ([65; 46; 66; 46; 67; 46], [[65; 46; 66; 46; 67; 46]]);
  ([101; 46; 103; 46], [[101; 46; 103; 46]]);
  ([101; 46; 103], [[101; 46; 103]]);
  ([65; 46; 65], [[65; 46; 65]]);
  ([85; 46; 83; 46], [[85; 46; 83; 46]]);
  ([117; 46; 115; 46], [[117; 46; 115; 46]]);
  ([49; 46; 65], [[49; 46; 65]]);
  ([65; 46; 49], [[65; 46; 49]]);
  ([73; 49; 46; 73; 48; 73], [[73; 49; 46; 73; 48; 73]]);
  ([105; 116; 101; 109; 115; 46; 49; 48; 49], [[105; 116; 101; 109; 115; 46; 49; 48; 49]]);
  ([105; 116; 101; 109; 115; 46; 73; 48; 73; 46; 65], [[105; 116; 101; 109; 115; 46; 73; 48; 73; 46; 65]]);
  ([97; 32; 110; 101; 119; 46; 46; 46; 32; 83; 101; 110; 116; 101; 110; 99; 101], [[97]; [110; 101; 119]; [46; 46; 46]; [83; 101; 110; 116; 101; 110; 99; 101]]);
  ([98; 108; 97; 46; 46; 46], [[98; 108; 97]; [46; 46; 46]]);
  ([97; 32; 110; 101; 119; 33; 33; 33; 32; 83; 101; 110; 116; 101; 110; 99; 101], [[97]; [110; 101; 119]; [33; 33; 33]; [83; 101; 110; 116; 101; 110; 99; 101]]);
  ([97; 32; 110; 101; 119; 63; 63; 32; 83; 101; 110; 116; 101; 110; 99; 101], [[97]; [110; 101; 119]; [63; 63]; [83; 101; 110; 116; 101; 110; 99; 101]]);
  ([97; 32; 110; 101; 119; 63; 63; 33; 32; 83; 101; 110; 116; 101; 110; 99; 101], [[97]; [110; 101; 119]; [63; 63; 33]; [83; 101; 110; 116; 101; 110; 99; 101]]);
  ([97; 32; 110; 101; 119; 46; 83; 101; 110; 116; 101; 110; 99; 101], [[97]; [110; 101; 119]; [46]; [83; 101; 110; 116; 101; 110; 99; 101]]);
  ([68; 101; 99; 101; 109; 98; 101; 114; 32; 52; 46; 32; 83; 101; 110; 116; 101; 110; 99; 101], [[68; 101; 99; 101; 109; 98; 101; 114]; [52]; [46]; [83; 101; 110; 116; 101; 110; 99; 101]]);
  ([116; 114; 121; 32; 109; 105; 110; 100; 102; 117; 108; 99; 104; 101; 102; 46; 99; 111; 109; 46; 32; 65; 110; 100; 32; 116; 104; 105; 115; 46], [[116; 114; 121]; [109; 105; 110; 100; 102; 117; 108; 99; 104; 101; 102; 46; 99; 111; 109]; [46]; [65; 110; 100]; [116; 104; 105; 115]; [46]]);
  ([97; 32; 110; 101; 119; 46; 32; 83; 101; 110; 116; 101; 110; 99; 101], [[97]; [110; 101; 119]; [46]; [83; 101; 110; 116; 101; 110; 99; 101]]);
  ([70; 105; 110; 101; 32; 65; 114; 116; 115; 46; 32; 83; 104; 101], [[70; 105; 110; 101]; [65; 114; 116; 115]; [46]; [83; 104; 101]]);
  ([105; 110; 32; 106; 117; 110; 101; 32; 49; 57; 54; 50; 46; 32; 66; 108; 97; 98; 108; 97], [[105; 110]; [106; 117; 110; 101]; [49; 57; 54; 50]; [46]; [66; 108; 97; 98; 108; 97]]);
  ([105; 110; 102; 111; 114; 109; 97; 116; 105; 111; 110; 32; 101; 116; 99; 46; 32; 83; 86; 78; 44; 32; 78; 78], [[105; 110; 102; 111; 114; 109; 97; 116; 105; 111; 110]; [101; 116; 99]; [46]; [83; 86; 78]; [44]; [78; 78]]);
  ([117; 115; 101; 32; 46; 78; 69; 84], [[117; 115; 101]; [46; 78; 69; 84]]);
  ([97; 32; 110; 101; 119; 46; 115; 101; 110; 116; 101; 110; 99; 101], [[97]; [110; 101; 119; 46; 115; 101; 110; 116; 101; 110; 99; 101]]);
  ([97; 32; 110; 101; 119; 32; 46; 115; 101; 110; 116; 101; 110; 99; 101], [[97]; [110; 101; 119]; [46; 115; 101; 110; 116; 101; 110; 99; 101]]);
  ([97; 32; 110; 101; 119; 46; 32; 115; 101; 110; 116; 101; 110; 99; 101], [[97]; [110; 101; 119; 46]; [115; 101; 110; 116; 101; 110; 99; 101]]);
  ([109; 97; 114; 107; 101; 116; 32; 105; 110; 32; 50; 48; 49; 53; 46; 32; 105; 110; 99; 108; 117; 100; 101; 115], [[109; 97; 114; 107; 101; 116]; [105; 110]; [50; 48; 49; 53; 46]; [105; 110; 99; 108; 117; 100; 101; 115]]);
  ([116; 104; 101; 32; 54; 57; 116; 104; 32; 114; 101; 103; 116; 46; 44], [[116; 104; 101]; [54; 57; 116; 104]; [114; 101; 103; 116; 46]; [44]]);
  ([116; 104; 101; 32; 54; 57; 116; 104; 32; 114; 101; 103; 116; 46; 58], [[116; 104; 101]; [54; 57; 116; 104]; [114; 101; 103; 116; 46]; [58]]);
  ([116; 104; 101; 32; 54; 57; 116; 104; 32; 114; 101; 103; 116; 46; 59], [[116; 104; 101]; [54; 57; 116; 104]; [114; 101; 103; 116; 46]; [59]]);
  ([116; 104; 101; 32; 54; 57; 116; 104; 32; 114; 101; 103; 116; 46; 41], [[116; 104; 101]; [54; 57; 116; 104]; [114; 101; 103; 116]; [46]; [41]]);
  ([97; 32; 115; 114; 103; 116; 46; 32; 40; 98; 111; 114; 110; 41], [[97]; [115; 114; 103; 116]; [46]; [40]; [98; 111; 114; 110]; [41]]);
  ([52; 46; 32; 98; 111; 117; 103; 104; 116], [[52; 46]; [98; 111; 117; 103; 104; 116]]);
  ([52; 46; 32; 73; 32; 98; 111; 117; 103; 104; 116], [[52]; [46]; [73]; [98; 111; 117; 103; 104; 116]]);
  ([65; 46; 32; 73; 32; 98; 111; 117; 103; 104; 116], [[65; 46]; [73]; [98; 111; 117; 103; 104; 116]]);
  ([65; 46; 32; 73; 32; 98; 111; 117; 103; 104; 116; 32; 65; 46; 32; 73; 32; 98; 111; 117; 103; 104; 116], [[65; 46]; [73]; [98; 111; 117; 103; 104; 116]; [65; 46]; [73]; [98; 111; 117; 103; 104; 116]]);
  ([49; 46; 65; 46; 32; 73; 32; 98; 111; 117; 103; 104; 116], [[49; 46; 65; 46]; [73]; [98; 111; 117; 103; 104; 116]]);
  ([49; 46; 65; 32; 73; 32; 98; 111; 117; 103; 104; 116], [[49; 46; 65]; [73]; [98; 111; 117; 103; 104; 116]]);
  ([40; 49; 46; 32; 84; 111; 100; 111; 32; 67; 97; 109; 98; 105; 97; 41], [[40]; [49]; [46]; [84; 111; 100; 111]; [67; 97; 109; 98; 105; 97]; [41]]);
  ([40; 49; 46; 32; 116; 111; 100; 111; 41], [[40]; [49; 46]; [116; 111; 100; 111]; [41]]);
  ([109; 97; 110; 117; 102; 46; 32; 99; 111; 109; 109; 46; 32; 115; 116; 114; 97; 116; 101; 103; 105; 101; 115], [[109; 97; 110; 117; 102; 46]; [99; 111; 109; 109; 46]; [115; 116; 114; 97; 116; 101; 103; 105; 101; 115]]);
  ([116; 101; 99; 104; 32; 65; 83; 80; 32; 46; 78; 69; 84], [[116; 101; 99; 104]; [65; 83; 80]; [46; 78; 69; 84]]);
  ([105; 116; 101; 109; 115; 32; 105; 115; 32; 78; 46; 32; 115; 104; 111; 114; 101], [[105; 116; 101; 109; 115]; [105; 115]; [78; 46]; [115; 104; 111; 114; 101]]);
  ([104; 105; 115; 32; 110; 97; 109; 101; 32; 105; 115; 32; 65; 46; 32; 71; 114; 97; 121], [[104; 105; 115]; [110; 97; 109; 101]; [105; 115]; [65; 46]; [71; 114; 97; 121]]);
  ([104; 105; 115; 32; 110; 97; 109; 101; 32; 105; 115; 32; 97; 46; 32; 103; 114; 97; 121], [[104; 105; 115]; [110; 97; 109; 101]; [105; 115]; [97; 46]; [103; 114; 97; 121]]);
  ([69; 110; 103; 97; 103; 101; 32; 85; 46; 83; 46; 32; 100; 111; 110; 111; 114; 115], [[69; 110; 103; 97; 103; 101]; [85; 46; 83; 46]; [100; 111; 110; 111; 114; 115]]);
  ([116; 104; 101; 32; 109; 105; 110; 46; 32; 105; 115; 32; 51], [[116; 104; 101]; [109; 105; 110; 46]; [105; 115]; [51]]);
  ([116; 104; 101; 32; 66; 108; 100; 46; 32; 105; 115], [[116; 104; 101]; [66; 108; 100; 46]; [105; 115]]);
  ([116; 104; 101; 32; 66; 76; 68; 46; 32; 105; 115], [[116; 104; 101]; [66; 76; 68; 46]; [105; 115]]);
  ([104; 101; 32; 105; 115; 32; 100; 114; 46; 32; 82; 111; 98; 105; 110], [[104; 101]; [105; 115]; [100; 114; 46]; [82; 111; 98; 105; 110]]);
  ([68; 114; 46; 32; 82; 111; 98; 105; 110], [[68; 114; 46]; [82; 111; 98; 105; 110]]);
  ([49; 51; 116; 104; 32; 101; 100; 46; 32; 78; 101; 119; 32; 89; 111; 114; 107], [[49; 51; 116; 104]; [101; 100; 46]; [78; 101; 119]; [89; 111; 114; 107]]);
  ([104; 101; 32; 105; 115; 32; 83; 114; 46; 32; 80; 114; 111; 103; 114; 97; 109; 109; 101; 114], [[104; 101]; [105; 115]; [83; 114; 46]; [80; 114; 111; 103; 114; 97; 109; 109; 101; 114]]);
  ([98; 117; 108; 108; 101; 116; 32; 49; 46; 32; 100; 111; 32; 116; 104; 105; 115], [[98; 117; 108; 108; 101; 116]; [49; 46]; [100; 111]; [116; 104; 105; 115]]);
  ([98; 117; 108; 108; 101; 116; 32; 48; 49; 46; 32; 100; 111; 32; 116; 104; 105; 115], [[98; 117; 108; 108; 101; 116]; [48; 49; 46]; [100; 111]; [116; 104; 105; 115]]);
  ([98; 117; 108; 108; 101; 116; 46; 50; 32; 100; 111; 32; 116; 104; 105; 115], [[98; 117; 108; 108; 101; 116; 46; 50]; [100; 111]; [116; 104; 105; 115]]);
  ([111; 102; 32; 46; 50; 48; 32; 105; 110; 99; 104], [[111; 102]; [46; 50; 48]; [105; 110; 99; 104]]);
  ([97; 46; 32; 98; 46; 32; 40], [[97; 46]; [98; 46]; [40]]);
  ([97; 110; 32; 110; 46; 32; 103; 46; 32; 58], [[97; 110]; [110; 46]; [103; 46]; [58]]);
  ([105; 110; 32; 117; 46; 115; 46; 32; 33], [[105; 110]; [117; 46; 115; 46]; [33]]);
  ([44; 32; 118; 111; 108; 115; 46; 32; 58], [[44]; [118; 111; 108; 115; 46]; [58]]);
  ([97; 32; 118; 111; 108; 117; 109; 101; 46; 32; 34], [[97]; [118; 111; 108; 117; 109; 101]; [46]; [34]]);
  ([97; 32; 118; 111; 108; 117; 109; 101; 46; 32; 39], [[97]; [118; 111; 108; 117; 109; 101]; [46]; [39]]);
  ([97; 32; 118; 111; 108; 117; 109; 101; 46; 32; 40], [[97]; [118; 111; 108; 117; 109; 101]; [46]; [40]]);
  ([97; 32; 118; 111; 108; 117; 109; 101; 46; 32; 41], [[97]; [118; 111; 108; 117; 109; 101]; [46]; [41]]);
  ([97; 32; 118; 111; 108; 117; 109; 101; 46; 32; 91], [[97]; [118; 111; 108; 117; 109; 101]; [46]; [91]]);
  ([97; 32; 118; 111; 108; 117; 109; 101; 46; 32; 93], [[97]; [118; 111; 108; 117; 109; 101]; [46]; [93]]);
  ([97; 32; 118; 111; 108; 117; 109; 101; 46; 32; 123], [[97]; [118; 111; 108; 117; 109; 101]; [46]; [123]]);
  ([97; 32; 118; 111; 108; 117; 109; 101; 46; 32; 125], [[97]; [118; 111; 108; 117; 109; 101]; [46]; [125]]);
  ([97; 32; 118; 111; 108; 117; 109; 101; 46; 32; 124], [[97]; [118; 111; 108; 117; 109; 101]; [46]; [124]]);
  ([97; 32; 118; 111; 108; 117; 109; 101; 46; 32; 42], [[97]; [118; 111; 108; 117; 109; 101]; [46]; [42]]);
  ([116; 104; 105; 115; 32; 105; 115; 32; 121; 111; 117; 33; 32; 79; 109; 103], [[116; 104; 105; 115]; [105; 115]; [121; 111; 117]; [33]; [79; 109; 103]]);
  ([116; 104; 105; 115; 32; 105; 115; 32; 121; 111; 117; 33], [[116; 104; 105; 115]; [105; 115]; [121; 111; 117]; [33]]);
  ([116; 104; 105; 115; 32; 105; 115; 32; 121; 111; 117; 33; 33; 33], [[116; 104; 105; 115]; [105; 115]; [121; 111; 117]; [33; 33; 33]]);
  ([109; 121; 32; 109; 97; 110; 33; 32; 45; 32; 109; 97; 114; 99; 117; 115], [[109; 121]; [109; 97; 110]; [33]; [45]; [109; 97; 114; 99; 117; 115]]);
  ([105; 110; 110; 111; 118; 97; 116; 101; 33; 32; 112; 114; 111; 106; 101; 99; 116], [[105; 110; 110; 111; 118; 97; 116; 101]; [33]; [112; 114; 111; 106; 101; 99; 116]]);
  ([116; 104; 105; 115; 32; 91; 105; 115; 93; 32; 121; 111; 117], [[116; 104; 105; 115]; [91]; [105; 115]; [93]; [121; 111; 117]]);
  ([116; 104; 105; 115; 32; 40; 105; 115; 41; 32; 121; 111; 117], [[116; 104; 105; 115]; [40]; [105; 115]; [41]; [121; 111; 117]]);
  ([116; 104; 105; 115; 32; 123; 105; 115; 125; 32; 121; 111; 117], [[116; 104; 105; 115]; [123]; [105; 115]; [125]; [121; 111; 117]]);
  ([116; 104; 105; 115; 32; 105; 115; 32; 121; 111; 117; 63; 32; 111; 109; 103], [[116; 104; 105; 115]; [105; 115]; [121; 111; 117]; [63]; [111; 109; 103]]);
  ([116; 104; 105; 115; 32; 105; 115; 32; 121; 111; 117; 63; 63; 63], [[116; 104; 105; 115]; [105; 115]; [121; 111; 117]; [63; 63; 63]]);
  ([109; 101; 92; 121; 111; 117], [[109; 101]; [92]; [121; 111; 117]]);
  ([109; 101; 124; 121; 111; 117], [[109; 101]; [124]; [121; 111; 117]]);
  ([116; 104; 101; 32; 34; 99; 97; 116; 34; 32; 106; 117; 109; 112; 115], [[116; 104; 101]; [34]; [99; 97; 116]; [34]; [106; 117; 109; 112; 115]]);
  ([116; 104; 101; 32; 99; 97; 116; 59; 32; 106; 117; 109; 112; 115], [[116; 104; 101]; [99; 97; 116]; [59]; [106; 117; 109; 112; 115]]);
  ([116; 104; 101; 32; 99; 97; 116; 58; 32; 106; 117; 109; 112; 115], [[116; 104; 101]; [99; 97; 116]; [58]; [106; 117; 109; 112; 115]]);
  ([102; 97; 105; 108; 117; 114; 101; 115; 32; 58; 105; 110; 99; 108; 117; 100; 101], [[102; 97; 105; 108; 117; 114; 101; 115]; [58]; [105; 110; 99; 108; 117; 100; 101]]);
  ([115; 101; 108; 108; 32; 62; 49; 50], [[115; 101; 108; 108]; [62]; [49; 50]]);
  ([115; 101; 108; 108; 32; 60; 49; 50], [[115; 101; 108; 108]; [60]; [49; 50]]);
  ([99; 97; 61; 98; 114; 101; 97; 107; 102; 97; 115; 116], [[99; 97]; [61]; [98; 114; 101; 97; 107; 102; 97; 115; 116]]);
  ([116; 97; 114; 103; 101; 116; 115; 61], [[116; 97; 114; 103; 101; 116; 115]; [61]]);
  ([115; 101; 108; 108; 32; 60; 45; 45; 32; 49; 50], [[115; 101; 108; 108]; [60; 45; 45]; [49; 50]]);
  ([115; 101; 108; 108; 32; 45; 62; 32; 49; 50], [[115; 101; 108; 108]; [45; 62]; [49; 50]]);
  ([84; 104; 105; 115; 32; 105; 115; 32; 60; 109; 101; 62], [[84; 104; 105; 115]; [105; 115]; [60]; [109; 101]; [62]]);
  ([83; 101; 108; 108; 32; 62; 53; 48; 37], [[83; 101; 108; 108]; [62]; [53; 48; 37]]);
  ([83; 101; 108; 108; 32; 60; 53; 48; 37], [[83; 101; 108; 108]; [60]; [53; 48; 37]]);
  ([100; 105; 115; 99; 117; 115; 115; 105; 111; 110; 42; 105; 110; 116; 101; 103; 114; 97; 116; 105; 111; 110], [[100; 105; 115; 99; 117; 115; 115; 105; 111; 110]; [42]; [105; 110; 116; 101; 103; 114; 97; 116; 105; 111; 110]]);
  ([100; 105; 115; 99; 117; 115; 115; 105; 111; 110; 42; 42; 42; 42; 105; 110; 116; 101; 103; 114; 97; 116; 105; 111; 110], [[100; 105; 115; 99; 117; 115; 115; 105; 111; 110]; [42]; [105; 110; 116; 101; 103; 114; 97; 116; 105; 111; 110]]);
  ([49; 50; 51; 42; 49; 50; 51], [[49; 50; 51; 42; 49; 50; 51]]);
  ([49; 50; 51; 42; 97; 98; 99], [[49; 50; 51; 42; 97; 98; 99]]);
  ([114; 101; 115; 112; 111; 110; 115; 105; 98; 105; 108; 105; 116; 105; 101; 115; 43; 116; 105; 109; 101; 108; 105; 110; 101], [[114; 101; 115; 112; 111; 110; 115; 105; 98; 105; 108; 105; 116; 105; 101; 115]; [43]; [116; 105; 109; 101; 108; 105; 110; 101]]);
  ([104; 97; 103; 101; 110; 43; 103; 114; 101; 103; 43; 107; 114; 105; 115], [[104; 97; 103; 101; 110]; [43]; [103; 114; 101; 103]; [43]; [107; 114; 105; 115]]);
  ([32; 76; 84; 69; 68; 43; 87; 105; 102; 105; 43; 66; 76; 69; 43; 83; 101; 99; 114; 101; 116; 32], [[76; 84; 69; 68]; [43]; [87; 105; 102; 105]; [43]; [66; 76; 69]; [43]; [83; 101; 99; 114; 101; 116]]);
  ([51; 43; 97; 116], [[51; 43]; [97; 116]]);
  ([51; 49; 50; 43; 97; 116], [[51; 49; 50; 43]; [97; 116]]);
  ([97; 97; 43], [[97; 97; 43]]);
  ([110; 101; 119; 38; 111; 108; 100], [[110; 101; 119]; [38]; [111; 108; 100]]);
  ([78; 101; 119; 38; 79; 108; 100], [[78; 101; 119]; [38]; [79; 108; 100]]);
  ([78; 69; 87; 38; 79; 76; 68], [[78; 69; 87; 38; 79; 76; 68]]);
  ([116; 38; 99; 115], [[116; 38; 99; 115]]);
  ([84; 38; 67; 83], [[84; 38; 67; 83]]);
  ([115; 99; 104; 101; 100; 117; 108; 101; 38; 32; 112; 114; 111; 118; 105; 100; 101], [[115; 99; 104; 101; 100; 117; 108; 101]; [38]; [112; 114; 111; 118; 105; 100; 101]]);
  ([115; 99; 104; 101; 100; 117; 108; 101; 38; 32; 112; 114; 111; 118; 105; 100; 101], [[115; 99; 104; 101; 100; 117; 108; 101]; [38]; [112; 114; 111; 118; 105; 100; 101]]);
  ([105; 110; 118; 101; 115; 116; 32; 82; 38; 68], [[105; 110; 118; 101; 115; 116]; [82; 38; 68]]);
  ([105; 110; 118; 101; 115; 116; 32; 82; 32; 38; 68], [[105; 110; 118; 101; 115; 116]; [82; 38; 68]]);
  ([105; 110; 118; 101; 115; 116; 32; 82; 38; 32; 68], [[105; 110; 118; 101; 115; 116]; [82; 38; 68]]);
  ([105; 110; 118; 101; 115; 116; 32; 82; 32; 38; 32; 68], [[105; 110; 118; 101; 115; 116]; [82; 38; 68]]);
  ([105; 110; 118; 101; 115; 116; 32; 82; 32; 38; 49], [[105; 110; 118; 101; 115; 116]; [82]; [38]; [49]]);
  ([105; 110; 118; 101; 115; 116; 32; 82; 38; 32; 68; 68], [[105; 110; 118; 101; 115; 116]; [82]; [38]; [68; 68]]);
  ([82; 38; 68; 32; 108; 97; 98], [[82; 38; 68]; [108; 97; 98]]);
  ([82; 38; 32; 68; 32; 108; 97; 98], [[82; 38; 68]; [108; 97; 98]]);
  ([82; 32; 38; 68; 32; 108; 97; 98], [[82; 38; 68]; [108; 97; 98]]);
  ([82; 32; 38; 32; 68; 32; 108; 97; 98], [[82; 38; 68]; [108; 97; 98]]);
  ([105; 110; 118; 101; 115; 116; 32; 82; 38; 68; 32; 108; 97; 98], [[105; 110; 118; 101; 115; 116]; [82; 38; 68]; [108; 97; 98]]);
  ([105; 110; 118; 101; 115; 116; 32; 82; 32; 38; 68; 32; 108; 97; 98], [[105; 110; 118; 101; 115; 116]; [82; 38; 68]; [108; 97; 98]]);
  ([105; 110; 118; 101; 115; 116; 32; 82; 38; 32; 68; 32; 108; 97; 98], [[105; 110; 118; 101; 115; 116]; [82; 38; 68]; [108; 97; 98]]);
  ([105; 110; 118; 101; 115; 116; 32; 82; 32; 38; 32; 68; 32; 108; 97; 98], [[105; 110; 118; 101; 115; 116]; [82; 38; 68]; [108; 97; 98]]);
  ([105; 110; 118; 101; 115; 116; 32; 65; 32; 82; 32; 38; 32; 68; 32; 108; 97; 98], [[105; 110; 118; 101; 115; 116]; [65; 82; 38; 68]; [108; 97; 98]]);
  ([105; 110; 118; 101; 115; 116; 32; 82; 32; 38; 32; 68; 32; 65; 32; 108; 97; 98], [[105; 110; 118; 101; 115; 116]; [82; 38; 68; 65]; [108; 97; 98]]);
  ([105; 110; 118; 101; 115; 116; 32; 82; 82; 32; 38; 32; 82; 50; 32; 65; 32; 108; 97; 98], [[105; 110; 118; 101; 115; 116]; [82; 82]; [38]; [82; 50]; [65]; [108; 97; 98]]);
  ([107; 105; 116; 99; 104; 101; 110; 38; 117; 116; 105; 108; 105; 116; 121], [[107; 105; 116; 99; 104; 101; 110]; [38]; [117; 116; 105; 108; 105; 116; 121]]);
  ([49; 48; 47; 49; 48; 47; 50; 48; 49; 48], [[49; 48; 47; 49; 48; 47; 50; 48; 49; 48]]);
  ([98; 50; 98; 47; 98; 50; 99], [[98; 50; 98]; [47]; [98; 50; 99]]);
  ([109; 101; 47; 121; 111; 117], [[109; 101]; [47]; [121; 111; 117]]);
  ([109; 101; 32; 47; 121; 111; 117], [[109; 101]; [47]; [121; 111; 117]]);
  ([109; 101; 47; 32; 121; 111; 117], [[109; 101]; [47]; [121; 111; 117]]);
  ([47; 101; 120; 116; 101; 114; 110; 97; 108], [[47]; [101; 120; 116; 101; 114; 110; 97; 108]]);
  ([112; 47; 97], [[112; 47; 97]]);
  ([65; 47; 66], [[65; 47; 66]]);
  ([65; 47], [[65; 47]]);
  ([47; 66], [[47; 66]]);
  ([8211; 116; 104; 105; 115], [[45]; [116; 104; 105; 115]]);
  ([37; 49; 50], [[37; 49; 50]]);
  ([49; 50; 37], [[49; 50; 37]]);
  ([37; 115; 97; 118; 105; 110; 103; 115], [[37]; [115; 97; 118; 105; 110; 103; 115]]);
  ([115; 97; 118; 101; 37; 115; 97; 118; 105; 110; 103; 115], [[115; 97; 118; 101]; [37]; [115; 97; 118; 105; 110; 103; 115]]);
  ([101; 120; 97; 109; 112; 108; 101; 58; 32; 98; 108; 97], [[101; 120; 97; 109; 112; 108; 101]; [58]; [98; 108; 97]]);
  ([114; 97; 105; 115; 101; 32; 81; 49; 58; 32; 82; 97; 105; 115; 101; 32; 49; 36], [[114; 97; 105; 115; 101]; [81; 49]; [58]; [82; 97; 105; 115; 101]; [49; 36]]);
  ([115; 117; 112; 112; 111; 114; 116; 58; 114; 101; 118; 105; 115; 101], [[115; 117; 112; 112; 111; 114; 116]; [58]; [114; 101; 118; 105; 115; 101]]);
  ([112; 97; 121; 114; 111; 108; 108; 58; 104; 114], [[112; 97; 121; 114; 111; 108; 108]; [58]; [104; 114]]);
  ([83; 117; 112; 112; 111; 114; 116; 58; 82; 101; 118; 105; 115; 101], [[83; 117; 112; 112; 111; 114; 116]; [58]; [82; 101; 118; 105; 115; 101]]);
  ([114; 101; 58; 105; 110; 118; 101; 110; 116], [[114; 101; 58; 105; 110; 118; 101; 110; 116]]);
  ([99; 111; 110; 100; 117; 99; 116; 32; 49; 58; 49; 115], [[99; 111; 110; 100; 117; 99; 116]; [49; 58; 49; 115]]);
  ([73; 83; 79; 32; 49; 50; 51; 58; 49; 50; 51], [[73; 83; 79]; [49; 50; 51; 58; 49; 50; 51]]);
  ([65; 58; 66], [[65; 58; 66]]);
  ([115; 116; 101; 112; 58; 55; 48; 51], [[115; 116; 101; 112]; [58]; [55; 48; 51]]);
  ([83; 101; 108; 108; 32; 49; 50; 58], [[83; 101; 108; 108]; [49; 50]; [58]]);
  ([83; 116; 114; 97; 116; 101; 103; 121; 58; 72; 82], [[83; 116; 114; 97; 116; 101; 103; 121]; [58]; [72; 82]]);
  ([50; 58; 72; 82], [[50]; [58]; [72; 82]]);
  ([49; 50; 50; 52; 51; 58; 101; 110; 103; 97; 103; 101], [[49; 50; 50; 52; 51]; [58]; [101; 110; 103; 97; 103; 101]]);
  ([83; 101; 108; 108; 32; 49; 50; 45; 62; 50; 51], [[83; 101; 108; 108]; [49; 50; 45; 62; 50; 51]]);
  ([83; 101; 108; 108; 32; 49; 50; 62; 50; 51], [[83; 101; 108; 108]; [49; 50]; [62]; [50; 51]]);
  ([97; 32; 61; 32; 62; 32; 98], [[97]; [61; 62]; [98]]);
  ([32; 120; 32; 62; 32; 61; 32; 49; 50; 46; 53], [[120]; [62; 61]; [49; 50; 46; 53]]);
  ([32; 120; 32; 60; 32; 61; 32; 49; 50; 46; 53], [[120]; [60; 61]; [49; 50; 46; 53]]);
  ([104; 101; 108; 108; 111; 44; 32; 104; 105], [[104; 101; 108; 108; 111]; [44]; [104; 105]]);
  ([49; 50; 51; 44; 32; 97; 108; 108; 32; 103; 111; 111; 100], [[49; 50; 51]; [44]; [97; 108; 108]; [103; 111; 111; 100]]);
  ([97; 108; 108; 32; 103; 111; 111; 100; 44; 49; 50; 51], [[97; 108; 108]; [103; 111; 111; 100]; [44]; [49; 50; 51]]);
  ([49; 50; 51; 44; 49; 50; 51], [[49; 50; 51; 44; 49; 50; 51]]);
  ([82; 111; 99; 99; 111; 32; 39; 115; 32; 98; 108; 111; 98], [[82; 111; 99; 99; 111]; [39; 115]; [98; 108; 111; 98]]);
  ([72; 105; 115; 32; 110; 97; 109; 101; 32; 105; 115; 32; 39; 82; 111; 98; 39; 32; 98; 111; 98], [[72; 105; 115]; [110; 97; 109; 101]; [105; 115]; [39]; [82; 111; 98]; [39]; [98; 111; 98]]);
  ([72; 105; 115; 32; 110; 97; 109; 101; 32; 105; 115; 32; 82; 111; 98; 32; 39; 98; 111; 98; 39], [[72; 105; 115]; [110; 97; 109; 101]; [105; 115]; [82; 111; 98]; [39]; [98; 111; 98]; [39]]);
  ([108; 97; 117; 110; 99; 104; 32; 39; 103; 111; 32; 108; 105; 118; 101; 39; 115; 116; 114; 97; 116; 101; 103; 121], [[108; 97; 117; 110; 99; 104]; [39]; [103; 111]; [108; 105; 118; 101]; [39]; [115; 116; 114; 97; 116; 101; 103; 121]]);
  ([106; 97; 109; 101; 115; 32; 111; 39; 104; 97; 114; 101], [[106; 97; 109; 101; 115]; [111; 39; 104; 97; 114; 101]]);
  ([39; 112; 114; 111; 112; 111; 115; 97; 108], [[39]; [112; 114; 111; 112; 111; 115; 97; 108]]);
  ([68; 101; 108; 105; 118; 101; 114; 32; 52; 39], [[68; 101; 108; 105; 118; 101; 114]; [52; 102; 116]]);
  ([68; 101; 108; 105; 118; 101; 114; 32; 52; 34], [[68; 101; 108; 105; 118; 101; 114]; [52; 105; 110]]);
  ([68; 101; 108; 105; 118; 101; 114; 32; 52; 39; 52; 34], [[68; 101; 108; 105; 118; 101; 114]; [52; 102; 116; 52; 105; 110]]);
  ([39; 119; 101; 32; 119; 105; 108; 108; 32; 114; 117; 110; 32; 105; 116; 101; 109; 115; 32; 97; 103; 97; 105; 110; 39], [[39]; [119; 101]; [119; 105; 108; 108]; [114; 117; 110]; [105; 116; 101; 109; 115]; [97; 103; 97; 105; 110]; [39]]);
  ([99; 101; 111; 32; 111; 114; 100; 101; 114; 32; 39; 109; 97; 99; 98; 111; 111; 107; 32; 112; 114; 111; 39], [[99; 101; 111]; [111; 114; 100; 101; 114]; [39]; [109; 97; 99; 98; 111; 111; 107]; [112; 114; 111]; [39]]);
  ([114; 111; 99; 107; 32; 39; 110; 39; 32; 114; 111; 108; 108], [[114; 111; 99; 107]; [39; 110; 39]; [114; 111; 108; 108]]);
  ([114; 111; 99; 107; 32; 39; 110; 32; 114; 111; 108; 108], [[114; 111; 99; 107]; [39; 110]; [114; 111; 108; 108]]);
  ([114; 111; 99; 107; 32; 110; 39; 32; 114; 111; 108; 108], [[114; 111; 99; 107]; [110; 39]; [114; 111; 108; 108]]);
  ([74; 97; 110; 101; 39; 115; 32; 98; 108; 111; 98], [[74; 97; 110; 101]; [39; 115]; [98; 108; 111; 98]]);
  ([115; 100; 111; 39; 115], [[115; 100; 111]; [39; 115]]);
  ([109; 97; 107; 101; 32; 83; 79; 80; 39; 115; 32; 116; 111; 100; 97; 121], [[109; 97; 107; 101]; [83; 79; 80]; [39; 115]; [116; 111; 100; 97; 121]]);
  ([73; 39; 100; 32; 101; 97; 116], [[73]; [39; 100]; [101; 97; 116]]);
  ([73; 39; 109; 32; 98; 108; 111; 98], [[73]; [39; 109]; [98; 108; 111; 98]]);
  ([84; 104; 101; 121; 39; 108; 108; 32; 99; 111; 109; 101], [[84; 104; 101; 121]; [39; 108; 108]; [99; 111; 109; 101]]);
  ([84; 104; 101; 121; 39; 114; 101; 32; 98; 108; 111; 98; 115], [[84; 104; 101; 121]; [39; 114; 101]; [98; 108; 111; 98; 115]]);
  ([84; 104; 101; 121; 39; 118; 101; 32; 101; 97; 116; 101; 110], [[84; 104; 101; 121]; [39; 118; 101]; [101; 97; 116; 101; 110]]);
  ([84; 104; 101; 121; 32; 97; 114; 101; 110; 39; 116; 32; 98; 108; 111; 98; 115], [[84; 104; 101; 121]; [97; 114; 101]; [110; 39; 116]; [98; 108; 111; 98; 115]]);
  ([84; 104; 101; 121; 32; 99; 97; 110; 39; 116; 32; 98; 108; 111; 98; 115], [[84; 104; 101; 121]; [99; 97]; [110; 39; 116]; [98; 108; 111; 98; 115]]);
  ([84; 104; 101; 121; 32; 104; 97; 118; 101; 110; 39; 116; 32; 98; 108; 111; 98; 115], [[84; 104; 101; 121]; [104; 97; 118; 101]; [110; 39; 116]; [98; 108; 111; 98; 115]]);
  ([84; 104; 101; 121; 32; 105; 115; 110; 39; 116; 32; 98; 108; 111; 98; 115], [[84; 104; 101; 121]; [105; 115]; [110; 39; 116]; [98; 108; 111; 98; 115]]);
  ([105; 102; 112; 39; 115], [[105; 102; 112]; [39; 115]]);
  ([98; 108; 97; 32; 47; 47; 32; 98; 108; 97], [[98; 108; 97]; [47; 47]; [98; 108; 97]]);
  ([98; 108; 97; 32; 123; 123; 98; 108; 97; 125; 125], [[98; 108; 97]; [123; 123]; [98; 108; 97]; [125; 125]]);
  ([98; 108; 97; 32; 123; 123; 98; 108; 97; 125; 125], [[98; 108; 97]; [123; 123]; [98; 108; 97]; [125; 125]]);
  ([121; 101; 97; 114; 46; 32; 42; 105; 110; 116; 114; 111; 100; 117; 99; 101], [[121; 101; 97; 114]; [46]; [42]; [105; 110; 116; 114; 111; 100; 117; 99; 101]]);
  ([121; 101; 97; 114; 46; 32; 45; 105; 110; 116; 114; 111; 100; 117; 99; 101], [[121; 101; 97; 114]; [46]; [45]; [105; 110; 116; 114; 111; 100; 117; 99; 101]]);
  ([95; 116; 97; 103; 32; 35; 77; 101; 110; 65; 114; 101; 80; 105; 103; 115], [[95; 116; 97; 103]; [35; 77; 101; 110; 65; 114; 101; 80; 105; 103; 115]]);
  ([95; 116; 97; 103; 32; 64; 77; 101; 110; 65; 114; 101; 80; 105; 103; 115], [[95; 116; 97; 103]; [64; 77; 101; 110; 65; 114; 101; 80; 105; 103; 115]]);
  ([118; 105; 115; 105; 116; 32; 104; 116; 116; 112; 58; 47; 47; 98; 108; 97; 46; 99; 111; 109; 46; 97; 117], [[118; 105; 115; 105; 116]; [104; 116; 116; 112; 58; 47; 47; 98; 108; 97; 46; 99; 111; 109; 46; 97; 117]]);
  ([118; 105; 115; 105; 116; 32; 104; 116; 116; 112; 115; 58; 47; 47; 98; 108; 97; 46; 99; 111; 109; 46; 97; 117; 47], [[118; 105; 115; 105; 116]; [104; 116; 116; 112; 115; 58; 47; 47; 98; 108; 97; 46; 99; 111; 109; 46; 97; 117; 47]]);
  ([118; 105; 115; 105; 116; 32; 119; 119; 119; 46; 98; 108; 97; 46; 99; 111; 109; 46; 97; 117; 47; 98; 108; 97; 46; 112; 100; 102], [[118; 105; 115; 105; 116]; [119; 119; 119; 46; 98; 108; 97; 46; 99; 111; 109; 46; 97; 117; 47; 98; 108; 97; 46; 112; 100; 102]]);
  ([118; 105; 115; 105; 116; 32; 119; 119; 119; 46; 66; 108; 97; 46; 99; 111; 109; 32; 97; 110; 100; 32; 119; 119; 119; 46; 66; 108; 97; 50; 46; 99; 111; 109], [[118; 105; 115; 105; 116]; [119; 119; 119; 46; 66; 108; 97; 46; 99; 111; 109]; [97; 110; 100]; [119; 119; 119; 46; 66; 108; 97; 50; 46; 99; 111; 109]]);
  ([111; 110; 32; 79; 99; 116; 46; 32; 50; 57; 44; 32; 50; 48; 49; 55; 46], [[111; 110]; [79; 99; 116; 46]; [50; 57]; [44]; [50; 48; 49; 55]; [46]]);
  ([105; 110; 118; 111; 108; 118; 101; 32; 116; 104; 101; 32; 85; 46; 83; 46; 63], [[105; 110; 118; 111; 108; 118; 101]; [116; 104; 101]; [85; 46; 83; 46]; [63]]);
  ([34; 74; 117; 109; 112; 34; 44; 32; 104; 101; 32; 115; 97; 105; 100; 46], [[34]; [74; 117; 109; 112]; [34]; [44]; [104; 101]; [115; 97; 105; 100]; [46]]);
  ([34; 74; 117; 109; 112; 46; 34; 44; 32; 104; 101; 32; 115; 97; 105; 100; 46], [[34]; [74; 117; 109; 112]; [46]; [34]; [44]; [104; 101]; [115; 97; 105; 100]; [46]]);
  ([34; 74; 117; 109; 112; 46; 34; 32; 104; 101; 32; 115; 97; 105; 100; 46], [[34]; [74; 117; 109; 112]; [46]; [34]; [104; 101]; [115; 97; 105; 100]; [46]]);
  ([77; 115; 46; 32; 68; 101; 97; 110; 46], [[77; 115; 46]; [68; 101; 97; 110]; [46]]);
  ([77; 115; 46; 32; 68; 101; 97; 110; 46; 32; 77; 114; 115; 32; 68; 101; 97; 110; 46], [[77; 115; 46]; [68; 101; 97; 110]; [46]; [77; 114; 115]; [68; 101; 97; 110]; [46]]);
  ([83; 103; 116; 46; 32; 80; 101; 112; 112; 46; 32; 119; 101; 110; 116; 32; 116; 104; 101; 114; 101], [[83; 103; 116; 46]; [80; 101; 112; 112; 46]; [119; 101; 110; 116]; [116; 104; 101; 114; 101]]);
  ([58; 45; 41], [[58; 45; 41]]);
  ([115; 97; 105; 100; 32; 76; 116; 46; 32; 71; 111; 118; 46; 32; 66; 114; 105; 97; 110; 32; 67; 97; 108; 108; 101; 121; 32; 105; 110; 32; 97; 32; 68; 101; 99; 46; 32; 49; 57; 32; 112; 114; 101; 115; 115; 32; 114; 101; 108; 101; 97; 115; 101; 46], [[115; 97; 105; 100]; [76; 116; 46]; [71; 111; 118; 46]; [66; 114; 105; 97; 110]; [67; 97; 108; 108; 101; 121]; [105; 110]; [97]; [68; 101; 99; 46]; [49; 57]; [112; 114; 101; 115; 115]; [114; 101; 108; 101; 97; 115; 101]; [46]]);
  ([104; 101; 97; 100; 113; 117; 97; 114; 116; 101; 114; 115; 32; 105; 110; 32; 71; 104; 101; 110; 116; 44; 32; 66; 101; 108; 103; 105; 117; 109; 46; 32; 84; 104; 101; 32; 99; 111; 109; 112; 97; 110; 121; 32; 100; 101; 118; 101; 108; 111; 112; 115], [[104; 101; 97; 100; 113; 117; 97; 114; 116; 101; 114; 115]; [105; 110]; [71; 104; 101; 110; 116]; [44]; [66; 101; 108; 103; 105; 117; 109]; [46]; [84; 104; 101]; [99; 111; 109; 112; 97; 110; 121]; [100; 101; 118; 101; 108; 111; 112; 115]]);
  ([84; 104; 101; 32; 102; 97; 115; 116; 101; 115; 116; 32; 105; 110; 32; 116; 104; 101; 32; 119; 111; 114; 108; 100; 44; 32; 98; 121; 32; 97; 32; 108; 111; 110; 103; 32; 109; 97; 114; 103; 105; 110; 46; 32; 67; 111; 110; 99; 101; 110; 116; 114; 97; 116; 101; 46; 32; 71; 111; 116; 32; 97; 32; 112; 105; 99; 116; 117; 114; 101; 32; 105; 110; 32; 109; 105; 110; 100; 63], [[84; 104; 101]; [102; 97; 115; 116; 101; 115; 116]; [105; 110]; [116; 104; 101]; [119; 111; 114; 108; 100]; [44]; [98; 121]; [97]; [108; 111; 110; 103]; [109; 97; 114; 103; 105; 110]; [46]; [67; 111; 110; 99; 101; 110; 116; 114; 97; 116; 101]; [46]; [71; 111; 116]; [97]; [112; 105; 99; 116; 117; 114; 101]; [105; 110]; [109; 105; 110; 100]; [63]]);
  ([34; 73; 32; 119; 114; 111; 116; 101; 44; 32; 39; 77; 97; 107; 105; 110; 103; 32; 108; 101; 109; 111; 110; 97; 100; 101; 32; 111; 117; 116; 32; 111; 102; 32; 108; 101; 109; 111; 110; 115; 46; 39; 32; 34; 32; 84; 104; 101; 32; 112; 111; 115; 116; 32; 109; 97; 114; 107; 101; 100; 32; 116; 104; 101; 32; 115; 116; 97; 114; 116; 46], [[34]; [73]; [119; 114; 111; 116; 101]; [44]; [39]; [77; 97; 107; 105; 110; 103]; [108; 101; 109; 111; 110; 97; 100; 101]; [111; 117; 116]; [111; 102]; [108; 101; 109; 111; 110; 115]; [46]; [39]; [34]; [84; 104; 101]; [112; 111; 115; 116]; [109; 97; 114; 107; 101; 100]; [116; 104; 101]; [115; 116; 97; 114; 116]; [46]]);
  ([34; 73; 32; 119; 114; 111; 116; 101; 44; 32; 34; 77; 97; 107; 105; 110; 103; 32; 108; 101; 109; 111; 110; 97; 100; 101; 32; 111; 117; 116; 32; 111; 102; 32; 108; 101; 109; 111; 110; 115; 46; 34; 32; 34; 32; 84; 104; 101; 32; 112; 111; 115; 116; 32; 109; 97; 114; 107; 101; 100; 32; 116; 104; 101; 32; 115; 116; 97; 114; 116; 46], [[34]; [73]; [119; 114; 111; 116; 101]; [44]; [34]; [77; 97; 107; 105; 110; 103]; [108; 101; 109; 111; 110; 97; 100; 101]; [111; 117; 116]; [111; 102]; [108; 101; 109; 111; 110; 115]; [46]; [34]; [34]; [84; 104; 101]; [112; 111; 115; 116]; [109; 97; 114; 107; 101; 100]; [116; 104; 101]; [115; 116; 97; 114; 116]; [46]]);
  ([73; 32; 115; 97; 121; 44; 32; 39; 87; 104; 121; 32; 100; 105; 100; 32; 73; 32; 100; 111; 32; 116; 104; 97; 116; 33; 39; 32; 73; 116; 32; 107; 101; 101; 112; 115; 32; 121; 111; 117; 32; 105; 110; 115; 112; 105; 114; 101; 100; 33], [[73]; [115; 97; 121]; [44]; [39]; [87; 104; 121]; [100; 105; 100]; [73]; [100; 111]; [116; 104; 97; 116]; [33]; [39]; [73; 116]; [107; 101; 101; 112; 115]; [121; 111; 117]; [105; 110; 115; 112; 105; 114; 101; 100]; [33]]);
  ([73; 32; 115; 97; 121; 44; 32; 39; 87; 104; 121; 32; 100; 105; 100; 32; 73; 32; 100; 111; 32; 116; 104; 97; 116; 63; 39; 32; 73; 116; 32; 107; 101; 101; 112; 115; 32; 121; 111; 117; 32; 105; 110; 115; 112; 105; 114; 101; 100; 33], [[73]; [115; 97; 121]; [44]; [39]; [87; 104; 121]; [100; 105; 100]; [73]; [100; 111]; [116; 104; 97; 116]; [63]; [39]; [73; 116]; [107; 101; 101; 112; 115]; [121; 111; 117]; [105; 110; 115; 112; 105; 114; 101; 100]; [33]]);
  ([84; 104; 101; 121; 32; 104; 97; 118; 101; 32; 98; 101; 99; 111; 109; 101; 32; 109; 121; 32; 111; 110; 108; 105; 110; 101; 32; 39; 115; 117; 112; 112; 111; 114; 116; 39; 32; 103; 114; 111; 117; 112; 46], [[84; 104; 101; 121]; [104; 97; 118; 101]; [98; 101; 99; 111; 109; 101]; [109; 121]; [111; 110; 108; 105; 110; 101]; [39]; [115; 117; 112; 112; 111; 114; 116]; [39]; [103; 114; 111; 117; 112]; [46]])
].

Definition case_ok (c : str * list str) : bool :=
  match tokenize ascii_udb (fst c) with Ok l => list_eqb str_eqb l (snd c) | Err _ => false end.

Example tokenizer_conforms : forallb case_ok tokenizer_cases = true.
Proof. vm_compute. reflexivity. Qed.
