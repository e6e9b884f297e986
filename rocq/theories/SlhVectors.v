(** Test vector of slh-dsa/tests/sphincs_tester_vectors_shake_128s.h, used by SphincsKat.v. *)
From Verif Require Import Bytes.
Definition slh_seed : list Z := [124; 153; 53; 160; 176; 118; 148; 170; 12; 109; 16; 228; 219; 107; 26; 221; 47; 216; 26; 37; 204; 177; 72; 3; 45; 205; 115; 153; 54; 115; 127; 45; 181; 5; 215; 207; 173; 27; 73; 116; 153; 50; 60; 134; 134; 50; 94; 71].
Definition slh_msg : list Z := [216; 28; 77; 141; 115; 79; 203; 251; 234; 222; 61; 63; 138; 3; 159; 170; 42; 44; 153; 87; 232; 53; 173; 85; 178; 46; 117; 191; 87; 187; 85; 106; 200].
Definition slh_pk : list Z := [181; 5; 215; 207; 173; 27; 73; 116; 153; 50; 60; 134; 134; 50; 94; 71; 172; 82; 73; 2; 252; 129; 245; 3; 43; 194; 123; 23; 217; 38; 30; 189].
Definition slh_sk : list Z := [124; 153; 53; 160; 176; 118; 148; 170; 12; 109; 16; 228; 219; 107; 26; 221; 47; 216; 26; 37; 204; 177; 72; 3; 45; 205; 115; 153; 54; 115; 127; 45; 181; 5; 215; 207; 173; 27; 73; 116; 153; 50; 60; 134; 134; 50; 94; 71; 172; 82; 73; 2; 252; 129; 245; 3; 43; 194; 123; 23; 217; 38; 30; 189].
Definition slh_sig : list Z := [67; 210; 25; 141; 181; 9; 66; 61; 163; 11; 255; 45; 5; 68; 63; 17; 27; 166; 109; 111; 120; 43; 221; 36; 133; 88; 158; 161; 93; 43; 143; 240; 160; 12; 6; 234; 237; 200; 194; 45; 203; 134; 243; 223; 139; 82; 163; 189; 20; 77; 78; 214; 241; 22; 116; 49; 169; 93; 198; 1; 136; 121; 182; 176; 249; 129; 55; 151; 32; 78; 194; 176; 85; 139; 173; 23; 179; 46; 109; 217; 136; 8; 106; 3; 44; 10; 203; 207; 44; 19; 73; 255; 193; 108; 74; 247; 89; 54; 95; 247; 74; 254; 75; 141; 195; 250; 197; 178; 205; 167; 186; 101; 108; 54; 192; 134; 229; 132; 104; 192; 30; 221; 252; 149; 159; 189; 200; 83; 45; 117; 231; 156; 243; 55; 71; 86; 204; 4; 145; 207; 239; 85; 89; 33; 236; 133; 103; 191; 240; 182; 242; 22; 172; 74; 79; 32; 13; 166; 59; 92; 109; 58; 92; 50; 115; 170; 122; 66; 102; 173; 240; 131; 211; 18; 97; 3; 199; 63; 230; 58; 110; 5; 228; 126; 139; 154; 82; 15; 0; 243; 42; 105; 125; 15; 243; 165; 238; 132; 9; 49; 55; 115; 24; 143; 48; 11; 57; 229; 180; 150; 127; 235; 247; 124; 15; 35; 34; 103; 133; 238; 157; 206; 51; 92; 239; 177; 206; 132; 176; 103; 48; 88; 27; 206; 244; 212; 95; 36; 174; 228; 150; 166; 11; 212; 117; 155; 123; 32; 105; 34; 65; 133; 14; 174; 29; 231; 12; 124; 66; 135; 185; 243; 185; 98; 166; 110; 15; 35; 209; 48; 27; 132; 72; 187; 61; 197; 69; 190; 14; 248; 208; 236; 11; 224; 69; 211; 58; 228; 178; 220; 12; 93; 0; 44; 38; 153; 232; 244; 155; 243; 188; 177; 54; 118; 190; 239; 225; 17; 134; 162; 10; 149; 112; 39; 172; 72; 238; 109; 211; 59; 192; 137; 93; 249; 132; 127; 209; 198; 122; 117; 55; 119; 210; 26; 196; 100; 39; 81; 19; 144; 97; 204; 168; 54; 153; 130; 44; 19; 86; 120; 51; 185; 65; 254; 89; 84; 191; 240; 150; 154; 75; 32; 224; 130; 157; 119; 226; 78; 208; 224; 42; 0; 162; 206; 159; 126; 100; 146; 63; 166; 31; 13; 161; 175; 220; 89; 120; 220; 6; 58; 254; 172; 183; 16; 142; 224; 138; 170; 85; 183; 17; 223; 0; 187; 241; 199; 29; 105; 139; 56; 158; 106; 208; 238; 42; 244; 250; 209; 216; 248; 200; 125; 83; 238; 172; 31; 130; 161; 98; 169; 92; 213; 204; 230; 223; 201; 144; 138; 29; 227; 58; 43; 38; 180; 27; 188; 79; 253; 168; 225; 54; 135; 159; 16; 52; 26; 113; 61; 98; 193; 7; 243; 35; 140; 56; 105; 58; 255; 46; 31; 225; 90; 221; 131; 128; 103; 27; 47; 172; 143; 219; 58; 79; 250; 205; 20; 63; 90; 0; 226; 28; 172; 203; 231; 217; 93; 76; 49; 196; 218; 247; 17; 5; 41; 222; 89; 159; 182; 232; 170; 79; 113; 140; 97; 114; 244; 241; 12; 76; 29; 215; 49; 15; 142; 68; 209; 143; 185; 187; 107; 144; 106; 231; 206; 151; 61; 234; 223; 200; 45; 103; 4; 118; 46; 214; 17; 101; 246; 202; 17; 131; 19; 75; 108; 131; 75; 246; 180; 228; 206; 25; 112; 11; 181; 79; 178; 208; 242; 130; 177; 30; 229; 183; 246; 140; 114; 207; 50; 255; 158; 125; 19; 86; 189; 83; 253; 204; 224; 208; 60; 67; 208; 235; 246; 247; 216; 132; 26; 22; 221; 180; 153; 68; 208; 19; 116; 236; 185; 69; 230; 197; 240; 101; 157; 95; 81; 222; 11; 39; 168; 52; 226; 231; 190; 167; 138; 96; 157; 167; 93; 127; 44; 106; 64; 186; 145; 16; 162; 195; 49; 157; 183; 119; 91; 246; 34; 107; 154; 142; 50; 77; 196; 65; 24; 36; 168; 141; 185; 92; 194; 253; 150; 228; 188; 36; 241; 236; 182; 206; 43; 146; 147; 2; 12; 40; 222; 172; 236; 30; 179; 49; 61; 78; 61; 253; 36; 180; 3; 104; 111; 22; 39; 44; 172; 58; 202; 149; 8; 2; 87; 7; 26; 84; 247; 69; 255; 180; 112; 143; 242; 208; 45; 233; 77; 126; 155; 248; 212; 95; 100; 89; 23; 199; 19; 93; 107; 192; 161; 202; 10; 153; 188; 78; 51; 166; 137; 7; 170; 101; 165; 139; 88; 108; 86; 225; 216; 26; 246; 203; 87; 250; 93; 86; 179; 86; 118; 135; 236; 239; 83; 43; 181; 170; 175; 32; 65; 181; 16; 21; 56; 41; 66; 150; 174; 76; 17; 137; 165; 16; 14; 177; 155; 85; 49; 32; 22; 197; 117; 203; 187; 104; 143; 32; 186; 24; 109; 212; 142; 65; 97; 100; 194; 155; 46; 183; 181; 153; 121; 129; 75; 90; 142; 118; 85; 57; 151; 153; 191; 121; 238; 171; 62; 231; 109; 76; 151; 223; 40; 34; 101; 86; 79; 47; 168; 151; 26; 30; 204; 160; 196; 107; 89; 204; 107; 162; 83; 83; 28; 23; 171; 113; 37; 207; 42; 173; 96; 161; 32; 199; 212; 182; 49; 177; 186; 241; 135; 24; 44; 125; 117; 130; 218; 50; 50; 37; 18; 21; 255; 214; 162; 165; 92; 98; 123; 168; 213; 202; 254; 118; 21; 4; 216; 52; 31; 41; 62; 113; 57; 135; 214; 224; 202; 46; 171; 55; 60; 81; 49; 194; 211; 128; 81; 195; 91; 23; 145; 137; 55; 185; 254; 233; 131; 130; 194; 119; 100; 13; 224; 204; 236; 69; 186; 34; 217; 209; 137; 238; 165; 5; 162; 28; 133; 148; 221; 155; 18; 230; 154; 127; 175; 88; 237; 38; 155; 113; 138; 190; 234; 70; 33; 57; 29; 127; 180; 198; 224; 3; 123; 218; 244; 169; 172; 115; 25; 22; 116; 158; 42; 23; 215; 4; 207; 86; 22; 141; 151; 193; 123; 37; 126; 36; 131; 22; 170; 157; 161; 93; 130; 46; 227; 195; 37; 188; 5; 25; 23; 54; 65; 112; 7; 234; 130; 8; 134; 24; 215; 83; 31; 252; 239; 37; 91; 45; 226; 191; 159; 202; 235; 41; 216; 62; 86; 122; 8; 221; 61; 60; 34; 146; 9; 175; 150; 186; 113; 216; 39; 79; 218; 227; 36; 112; 40; 120; 217; 154; 192; 94; 153; 14; 13; 111; 52; 200; 121; 209; 146; 121; 245; 117; 65; 242; 148; 150; 100; 92; 173; 74; 99; 103; 147; 56; 91; 10; 93; 194; 29; 86; 89; 55; 252; 54; 56; 77; 234; 75; 235; 181; 116; 108; 16; 116; 142; 252; 189; 107; 25; 37; 167; 78; 58; 196; 103; 215; 175; 69; 110; 11; 161; 228; 122; 47; 171; 36; 232; 49; 28; 20; 216; 64; 180; 153; 201; 20; 14; 153; 164; 153; 51; 121; 185; 183; 98; 179; 173; 201; 73; 157; 92; 134; 208; 123; 198; 161; 89; 135; 106; 153; 98; 216; 164; 67; 81; 78; 129; 47; 117; 198; 13; 197; 0; 40; 56; 140; 98; 115; 41; 110; 114; 8; 163; 250; 97; 130; 86; 45; 16; 215; 20; 42; 153; 218; 6; 134; 239; 143; 5; 229; 100; 68; 108; 107; 179; 47; 253; 238; 158; 221; 19; 174; 229; 128; 39; 210; 158; 113; 149; 72; 182; 125; 117; 239; 233; 88; 26; 51; 116; 198; 111; 101; 161; 205; 158; 249; 233; 142; 107; 87; 196; 3; 33; 39; 57; 223; 111; 210; 222; 108; 138; 57; 222; 204; 124; 211; 62; 55; 219; 58; 15; 67; 41; 108; 185; 135; 232; 117; 109; 75; 41; 220; 34; 119; 51; 189; 238; 29; 47; 1; 103; 157; 171; 146; 206; 80; 110; 47; 199; 122; 112; 121; 135; 135; 178; 233; 91; 232; 233; 191; 128; 208; 182; 74; 248; 234; 166; 206; 218; 128; 254; 133; 160; 206; 175; 129; 243; 53; 185; 154; 24; 153; 163; 217; 214; 9; 231; 186; 96; 110; 178; 171; 171; 242; 187; 206; 27; 200; 249; 158; 175; 96; 116; 207; 28; 126; 7; 152; 150; 235; 9; 130; 124; 22; 208; 205; 72; 51; 55; 124; 70; 163; 55; 167; 149; 11; 49; 182; 86; 102; 36; 2; 232; 186; 131; 134; 104; 163; 21; 172; 83; 19; 21; 169; 165; 106; 241; 135; 41; 238; 37; 245; 55; 17; 192; 157; 37; 193; 115; 170; 14; 77; 43; 236; 114; 219; 75; 156; 180; 33; 13; 82; 168; 251; 47; 139; 38; 113; 177; 236; 113; 26; 77; 168; 163; 87; 223; 187; 13; 46; 201; 115; 74; 80; 225; 219; 146; 53; 42; 206; 15; 38; 245; 12; 251; 118; 253; 23; 160; 141; 236; 187; 25; 194; 65; 122; 157; 199; 25; 242; 236; 172; 74; 142; 124; 72; 39; 85; 51; 222; 245; 192; 135; 136; 220; 75; 71; 236; 129; 150; 11; 37; 165; 125; 186; 39; 98; 245; 160; 112; 3; 124; 80; 164; 136; 63; 233; 2; 235; 203; 21; 116; 153; 141; 213; 232; 177; 227; 78; 165; 174; 162; 11; 187; 239; 253; 181; 214; 22; 54; 136; 228; 225; 189; 201; 97; 159; 18; 183; 141; 32; 232; 192; 115; 248; 29; 168; 187; 228; 139; 222; 137; 52; 188; 113; 134; 218; 157; 41; 209; 246; 112; 163; 34; 191; 159; 235; 202; 146; 145; 94; 57; 60; 24; 120; 137; 92; 4; 184; 195; 101; 228; 211; 153; 172; 85; 26; 85; 197; 66; 100; 227; 252; 97; 118; 203; 205; 16; 23; 144; 134; 60; 218; 179; 149; 116; 164; 221; 92; 158; 221; 105; 160; 29; 242; 10; 16; 229; 171; 255; 49; 180; 226; 4; 245; 207; 126; 29; 201; 162; 118; 38; 236; 59; 240; 109; 40; 250; 208; 140; 16; 103; 72; 48; 215; 171; 197; 71; 114; 217; 90; 206; 102; 118; 87; 87; 52; 0; 7; 163; 83; 99; 210; 112; 244; 16; 166; 188; 242; 15; 44; 165; 77; 253; 176; 13; 155; 232; 250; 126; 165; 183; 155; 248; 24; 47; 22; 185; 95; 152; 80; 206; 76; 172; 255; 30; 102; 190; 194; 2; 181; 123; 133; 179; 124; 221; 44; 57; 0; 29; 41; 80; 102; 99; 104; 175; 162; 29; 229; 206; 104; 245; 72; 51; 168; 141; 161; 123; 73; 196; 230; 98; 67; 86; 14; 198; 26; 110; 253; 93; 58; 41; 102; 167; 109; 242; 220; 8; 196; 229; 240; 47; 139; 140; 215; 27; 144; 77; 221; 75; 253; 115; 165; 200; 72; 155; 126; 184; 19; 202; 61; 166; 184; 219; 234; 83; 99; 84; 224; 20; 40; 221; 109; 196; 45; 178; 50; 87; 162; 14; 50; 47; 104; 91; 184; 43; 32; 240; 237; 196; 131; 81; 194; 43; 117; 224; 170; 138; 220; 86; 127; 23; 46; 101; 67; 96; 224; 148; 193; 151; 84; 47; 57; 150; 91; 217; 0; 70; 33; 201; 238; 50; 151; 135; 14; 216; 24; 249; 128; 167; 30; 196; 168; 248; 24; 30; 155; 229; 190; 30; 246; 166; 96; 203; 246; 134; 55; 229; 75; 90; 250; 187; 197; 249; 220; 97; 147; 48; 20; 203; 82; 180; 210; 98; 74; 36; 172; 163; 198; 245; 202; 128; 221; 90; 238; 147; 208; 21; 90; 247; 3; 192; 172; 164; 169; 38; 108; 217; 181; 111; 63; 21; 47; 196; 252; 168; 231; 220; 227; 33; 161; 136; 104; 47; 179; 110; 111; 122; 115; 111; 212; 233; 151; 42; 159; 113; 241; 29; 80; 195; 81; 85; 30; 60; 69; 95; 27; 5; 27; 239; 203; 193; 253; 131; 35; 155; 116; 137; 81; 247; 225; 140; 32; 39; 98; 115; 57; 113; 45; 242; 119; 45; 205; 87; 222; 154; 21; 242; 24; 226; 90; 68; 147; 206; 32; 208; 57; 226; 136; 8; 129; 105; 68; 95; 36; 79; 20; 213; 110; 110; 254; 158; 208; 5; 9; 67; 51; 26; 78; 242; 151; 17; 156; 245; 192; 226; 30; 43; 188; 83; 93; 174; 191; 63; 206; 60; 175; 157; 134; 182; 44; 55; 164; 201; 189; 137; 145; 184; 255; 1; 233; 146; 242; 106; 119; 233; 135; 202; 141; 223; 108; 244; 125; 71; 213; 67; 158; 182; 98; 43; 36; 17; 114; 168; 213; 162; 81; 220; 181; 212; 210; 38; 166; 139; 239; 157; 46; 119; 223; 228; 219; 62; 189; 67; 66; 244; 155; 238; 130; 178; 143; 195; 80; 99; 233; 54; 88; 159; 134; 248; 255; 45; 176; 242; 167; 252; 191; 13; 70; 20; 132; 24; 79; 100; 191; 24; 229; 191; 246; 132; 84; 94; 97; 18; 248; 118; 98; 96; 152; 123; 207; 231; 107; 237; 90; 23; 223; 184; 138; 155; 125; 124; 172; 203; 66; 131; 175; 180; 238; 33; 239; 180; 61; 105; 140; 65; 61; 232; 19; 72; 48; 155; 193; 236; 16; 205; 179; 58; 126; 46; 74; 174; 212; 28; 254; 191; 128; 139; 8; 231; 246; 79; 143; 111; 37; 9; 96; 55; 92; 58; 62; 208; 97; 112; 0; 172; 110; 84; 166; 18; 114; 120; 97; 218; 244; 216; 147; 122; 225; 51; 165; 233; 156; 96; 126; 9; 232; 9; 127; 135; 110; 248; 205; 117; 226; 68; 183; 142; 170; 191; 131; 29; 185; 239; 208; 186; 64; 91; 82; 113; 88; 37; 151; 69; 121; 166; 39; 159; 119; 117; 171; 135; 222; 110; 38; 153; 121; 83; 14; 63; 255; 109; 143; 246; 66; 26; 179; 186; 30; 198; 27; 158; 188; 26; 42; 122; 165; 144; 2; 172; 145; 108; 38; 245; 91; 195; 105; 178; 225; 16; 48; 243; 52; 101; 72; 40; 40; 89; 48; 34; 138; 208; 129; 37; 0; 200; 34; 189; 65; 234; 212; 128; 181; 48; 51; 31; 134; 66; 242; 109; 84; 84; 254; 117; 204; 56; 112; 216; 7; 239; 146; 73; 107; 39; 224; 69; 179; 49; 127; 16; 233; 133; 51; 89; 135; 94; 192; 65; 17; 127; 59; 179; 125; 136; 197; 38; 239; 26; 52; 43; 110; 162; 137; 250; 105; 188; 145; 77; 143; 239; 132; 162; 115; 41; 243; 10; 115; 38; 200; 71; 16; 249; 114; 84; 50; 165; 37; 243; 191; 154; 243; 217; 63; 159; 173; 237; 87; 102; 249; 6; 122; 91; 27; 122; 13; 172; 146; 117; 32; 123; 103; 118; 196; 4; 177; 120; 1; 167; 55; 38; 102; 241; 83; 120; 205; 249; 27; 180; 194; 157; 106; 207; 121; 238; 209; 105; 24; 148; 124; 118; 146; 131; 232; 41; 236; 30; 151; 203; 144; 99; 4; 115; 34; 77; 136; 149; 242; 160; 33; 157; 48; 149; 7; 23; 63; 66; 89; 67; 114; 105; 111; 110; 248; 70; 139; 132; 61; 74; 213; 129; 173; 120; 194; 33; 187; 184; 119; 12; 162; 50; 56; 88; 1; 109; 198; 249; 195; 17; 189; 69; 26; 91; 104; 206; 35; 198; 254; 184; 193; 245; 67; 130; 168; 81; 45; 40; 110; 107; 213; 98; 173; 161; 198; 200; 199; 196; 109; 122; 151; 34; 215; 169; 9; 183; 204; 252; 227; 37; 139; 179; 123; 120; 192; 208; 118; 228; 187; 88; 123; 254; 5; 149; 37; 124; 152; 133; 67; 237; 235; 210; 242; 79; 158; 18; 77; 208; 227; 53; 234; 42; 221; 23; 32; 29; 247; 242; 230; 143; 188; 192; 45; 167; 212; 59; 122; 154; 143; 131; 222; 115; 117; 190; 44; 97; 180; 194; 184; 114; 187; 222; 37; 234; 101; 154; 89; 177; 166; 60; 188; 156; 94; 251; 108; 68; 157; 152; 24; 36; 82; 145; 198; 194; 50; 23; 174; 108; 176; 24; 205; 247; 169; 164; 146; 64; 243; 122; 72; 67; 97; 180; 80; 186; 143; 204; 237; 212; 244; 85; 108; 168; 66; 63; 209; 233; 7; 106; 135; 99; 6; 149; 142; 226; 100; 70; 70; 99; 60; 39; 119; 40; 10; 199; 168; 46; 68; 29; 121; 181; 86; 198; 41; 215; 201; 123; 76; 120; 149; 75; 174; 14; 118; 203; 74; 177; 178; 11; 81; 18; 106; 200; 241; 37; 226; 240; 28; 38; 109; 243; 27; 42; 230; 213; 14; 176; 47; 150; 179; 144; 68; 129; 163; 34; 84; 121; 155; 194; 51; 136; 247; 216; 107; 107; 96; 135; 109; 32; 207; 158; 138; 68; 104; 251; 62; 190; 72; 131; 251; 144; 118; 90; 80; 93; 106; 233; 152; 39; 160; 255; 150; 213; 235; 40; 74; 199; 223; 129; 92; 15; 213; 170; 43; 223; 250; 86; 11; 220; 55; 190; 185; 167; 166; 164; 227; 252; 7; 74; 159; 129; 33; 50; 168; 107; 227; 161; 247; 52; 51; 161; 152; 10; 22; 139; 190; 84; 145; 15; 245; 149; 164; 123; 103; 71; 244; 58; 103; 143; 229; 167; 201; 110; 99; 107; 75; 135; 79; 52; 141; 36; 183; 147; 55; 219; 67; 21; 203; 16; 253; 14; 86; 36; 49; 81; 28; 50; 51; 83; 207; 30; 89; 253; 90; 85; 53; 126; 95; 107; 124; 206; 96; 241; 248; 33; 31; 209; 245; 190; 104; 247; 200; 189; 112; 194; 159; 3; 192; 166; 97; 60; 100; 221; 16; 166; 93; 181; 224; 197; 70; 245; 56; 36; 3; 255; 139; 163; 107; 173; 73; 135; 146; 49; 145; 42; 75; 33; 154; 8; 161; 152; 88; 177; 44; 39; 68; 253; 101; 96; 55; 117; 181; 107; 244; 69; 149; 18; 231; 145; 136; 146; 218; 85; 248; 125; 124; 192; 44; 104; 133; 192; 236; 2; 85; 11; 96; 158; 63; 167; 217; 251; 13; 19; 171; 225; 147; 61; 225; 14; 63; 250; 206; 95; 184; 248; 112; 124; 53; 172; 19; 116; 220; 20; 238; 133; 24; 72; 28; 126; 99; 217; 54; 236; 198; 47; 80; 199; 249; 81; 184; 123; 199; 22; 220; 69; 233; 188; 254; 198; 246; 217; 126; 127; 175; 218; 203; 109; 176; 94; 211; 119; 143; 33; 133; 31; 50; 94; 37; 71; 13; 168; 221; 129; 196; 18; 35; 109; 102; 203; 238; 159; 250; 156; 80; 184; 106; 164; 11; 175; 33; 52; 148; 223; 172; 202; 34; 170; 15; 180; 121; 83; 146; 135; 53; 202; 66; 18; 207; 83; 160; 154; 176; 51; 93; 32; 168; 230; 46; 222; 121; 124; 142; 116; 147; 84; 214; 54; 241; 95; 49; 80; 197; 82; 121; 123; 118; 192; 145; 164; 31; 148; 159; 127; 181; 123; 66; 247; 68; 28; 202; 65; 2; 100; 214; 66; 31; 74; 162; 199; 226; 255; 72; 52; 168; 219; 14; 110; 119; 80; 178; 225; 31; 241; 200; 154; 66; 209; 251; 194; 113; 131; 88; 227; 131; 37; 136; 106; 209; 35; 70; 205; 105; 79; 158; 171; 115; 70; 201; 162; 59; 94; 190; 118; 55; 191; 216; 52; 164; 18; 49; 139; 1; 24; 139; 15; 41; 227; 189; 151; 159; 138; 231; 52; 172; 241; 86; 58; 243; 3; 211; 192; 149; 233; 234; 235; 163; 82; 7; 185; 223; 58; 207; 158; 228; 125; 165; 193; 226; 101; 47; 59; 134; 65; 105; 143; 61; 34; 96; 89; 27; 7; 208; 5; 101; 229; 214; 190; 24; 54; 3; 61; 43; 126; 242; 195; 59; 220; 92; 243; 187; 169; 91; 66; 223; 111; 115; 52; 91; 131; 83; 65; 178; 80; 226; 134; 44; 159; 47; 156; 239; 119; 207; 167; 76; 251; 4; 197; 96; 216; 160; 3; 140; 78; 150; 203; 13; 162; 179; 233; 178; 205; 60; 236; 245; 34; 253; 160; 214; 126; 95; 98; 178; 238; 35; 189; 66; 166; 28; 125; 164; 143; 14; 163; 11; 129; 175; 124; 203; 107; 176; 44; 222; 39; 45; 37; 116; 19; 37; 233; 217; 21; 53; 97; 92; 1; 132; 242; 215; 242; 38; 20; 29; 121; 180; 36; 18; 114; 31; 211; 69; 97; 217; 54; 99; 101; 11; 60; 27; 105; 1; 135; 43; 196; 192; 187; 21; 188; 217; 3; 137; 80; 183; 113; 127; 127; 68; 139; 97; 38; 89; 32; 118; 162; 186; 210; 214; 60; 85; 57; 156; 36; 63; 219; 219; 12; 141; 103; 107; 42; 228; 85; 231; 240; 169; 177; 141; 63; 200; 137; 196; 51; 135; 242; 203; 196; 220; 115; 215; 200; 91; 250; 182; 180; 176; 68; 99; 163; 221; 53; 156; 58; 143; 97; 191; 166; 196; 176; 66; 74; 235; 164; 221; 138; 149; 236; 18; 67; 178; 227; 108; 41; 248; 46; 29; 113; 18; 129; 89; 155; 62; 5; 231; 84; 146; 174; 52; 37; 234; 167; 241; 79; 248; 198; 169; 99; 11; 186; 110; 189; 35; 111; 25; 82; 105; 164; 129; 232; 126; 179; 212; 68; 130; 91; 164; 66; 78; 229; 178; 217; 239; 181; 149; 213; 163; 56; 244; 194; 83; 247; 157; 233; 208; 69; 53; 32; 108; 166; 219; 194; 212; 201; 161; 236; 32; 132; 155; 13; 179; 251; 225; 12; 20; 70; 213; 97; 45; 91; 172; 145; 90; 57; 150; 44; 219; 202; 206; 224; 150; 157; 207; 142; 207; 184; 48; 206; 162; 32; 108; 55; 116; 156; 101; 184; 246; 115; 219; 9; 11; 30; 42; 222; 108; 42; 47; 52; 155; 89; 21; 16; 58; 58; 199; 132; 130; 195; 158; 153; 255; 196; 98; 111; 180; 207; 74; 17; 104; 4; 171; 157; 147; 215; 16; 70; 96; 254; 250; 7; 83; 207; 135; 92; 178; 47; 214; 14; 85; 220; 47; 48; 61; 224; 54; 71; 113; 43; 18; 6; 122; 85; 247; 164; 103; 137; 123; 190; 208; 211; 160; 157; 80; 233; 222; 170; 223; 247; 141; 233; 172; 101; 193; 253; 5; 208; 118; 16; 167; 156; 140; 70; 81; 65; 173; 101; 230; 3; 64; 83; 31; 171; 8; 241; 244; 51; 239; 130; 50; 131; 254; 161; 176; 14; 11; 160; 87; 132; 128; 37; 8; 84; 122; 131; 18; 145; 164; 27; 106; 87; 134; 211; 96; 50; 53; 178; 91; 151; 106; 62; 81; 130; 179; 250; 73; 6; 163; 122; 222; 73; 43; 148; 44; 42; 26; 99; 50; 236; 11; 78; 52; 108; 194; 212; 243; 180; 186; 158; 150; 27; 85; 26; 89; 220; 210; 32; 44; 195; 242; 195; 220; 70; 46; 164; 157; 112; 26; 132; 87; 204; 92; 11; 76; 131; 101; 78; 25; 2; 143; 183; 245; 12; 187; 215; 85; 179; 254; 244; 145; 121; 231; 218; 254; 6; 24; 144; 149; 234; 24; 148; 198; 104; 153; 140; 131; 96; 208; 9; 98; 67; 193; 210; 72; 197; 242; 103; 163; 23; 214; 149; 109; 154; 245; 196; 124; 208; 38; 227; 125; 63; 103; 140; 101; 54; 24; 208; 230; 116; 79; 87; 27; 254; 80; 200; 153; 227; 100; 107; 221; 167; 221; 51; 142; 80; 219; 14; 168; 86; 150; 24; 149; 198; 143; 95; 251; 233; 136; 42; 141; 107; 191; 1; 65; 155; 219; 149; 196; 122; 133; 83; 235; 22; 206; 117; 168; 34; 115; 27; 158; 69; 77; 26; 180; 131; 84; 52; 157; 158; 215; 28; 231; 157; 83; 49; 142; 46; 203; 197; 255; 43; 193; 175; 215; 78; 32; 1; 38; 28; 163; 204; 202; 248; 48; 122; 213; 25; 36; 101; 193; 69; 89; 118; 72; 135; 83; 126; 107; 105; 132; 116; 69; 208; 103; 19; 66; 126; 25; 28; 134; 190; 160; 84; 3; 220; 187; 166; 35; 166; 97; 36; 112; 60; 81; 95; 72; 114; 8; 158; 51; 232; 187; 206; 215; 142; 15; 237; 242; 41; 63; 228; 22; 183; 0; 151; 94; 70; 241; 237; 147; 123; 223; 144; 81; 138; 30; 86; 77; 112; 86; 183; 43; 50; 141; 147; 120; 69; 175; 20; 228; 233; 23; 110; 58; 248; 206; 56; 149; 203; 18; 191; 106; 52; 33; 162; 242; 39; 178; 208; 204; 152; 78; 113; 73; 64; 18; 193; 36; 93; 255; 184; 10; 105; 190; 133; 142; 248; 189; 129; 16; 34; 64; 34; 54; 21; 147; 120; 0; 14; 86; 70; 224; 1; 128; 100; 113; 224; 255; 231; 220; 126; 249; 228; 58; 238; 216; 35; 84; 134; 162; 166; 29; 45; 96; 34; 157; 212; 112; 42; 82; 64; 196; 55; 228; 194; 24; 21; 50; 211; 70; 72; 115; 41; 184; 242; 223; 46; 73; 137; 165; 231; 119; 174; 28; 190; 3; 148; 39; 204; 232; 142; 202; 17; 133; 252; 217; 232; 217; 201; 163; 235; 119; 173; 59; 105; 150; 138; 215; 74; 6; 118; 5; 41; 198; 247; 230; 171; 236; 197; 133; 150; 118; 122; 112; 98; 234; 201; 78; 156; 121; 16; 164; 71; 61; 186; 246; 209; 4; 205; 13; 139; 185; 226; 182; 118; 253; 175; 86; 227; 154; 243; 73; 20; 158; 185; 31; 101; 97; 215; 82; 200; 70; 62; 63; 224; 38; 89; 52; 169; 29; 198; 27; 32; 220; 158; 183; 143; 139; 186; 144; 41; 169; 193; 99; 149; 253; 160; 192; 155; 95; 1; 64; 212; 18; 108; 144; 36; 95; 186; 212; 133; 222; 205; 97; 93; 1; 84; 197; 1; 231; 136; 178; 64; 124; 250; 232; 177; 33; 9; 54; 186; 89; 122; 95; 211; 84; 28; 131; 79; 140; 101; 53; 250; 126; 49; 197; 213; 5; 44; 97; 28; 159; 222; 44; 136; 53; 61; 97; 166; 62; 169; 59; 231; 187; 118; 175; 129; 252; 22; 6; 78; 8; 163; 219; 88; 97; 248; 246; 73; 252; 109; 14; 241; 28; 185; 40; 142; 212; 167; 242; 115; 22; 75; 46; 123; 13; 27; 158; 144; 45; 19; 251; 174; 222; 173; 131; 35; 192; 228; 58; 212; 67; 5; 190; 220; 65; 223; 3; 228; 31; 229; 36; 61; 140; 38; 119; 233; 110; 65; 43; 105; 210; 76; 200; 20; 15; 246; 111; 195; 1; 145; 77; 102; 122; 212; 194; 18; 52; 70; 236; 41; 169; 68; 58; 11; 248; 50; 6; 160; 245; 192; 18; 113; 252; 41; 188; 182; 57; 204; 132; 39; 200; 27; 131; 167; 71; 120; 88; 95; 131; 119; 138; 17; 203; 26; 0; 117; 132; 234; 93; 65; 159; 196; 146; 30; 145; 91; 164; 192; 62; 97; 35; 228; 194; 99; 51; 112; 202; 170; 77; 186; 219; 128; 222; 90; 97; 155; 44; 203; 220; 111; 82; 218; 222; 254; 253; 20; 45; 25; 198; 181; 184; 151; 75; 143; 159; 201; 75; 195; 90; 80; 52; 30; 61; 66; 125; 246; 219; 165; 187; 157; 130; 221; 111; 35; 131; 243; 140; 121; 57; 104; 130; 145; 97; 88; 147; 55; 202; 102; 18; 255; 227; 151; 114; 101; 203; 147; 30; 181; 60; 184; 156; 171; 149; 26; 120; 46; 219; 212; 60; 231; 189; 127; 60; 8; 211; 187; 172; 201; 204; 144; 96; 35; 174; 151; 121; 172; 228; 163; 173; 174; 58; 121; 148; 179; 169; 76; 196; 197; 99; 218; 125; 0; 162; 65; 176; 53; 4; 53; 200; 209; 34; 153; 93; 208; 42; 4; 173; 146; 237; 6; 58; 135; 67; 142; 162; 126; 248; 213; 193; 77; 91; 61; 26; 6; 148; 138; 164; 169; 250; 64; 166; 190; 221; 150; 202; 86; 106; 69; 160; 117; 248; 129; 245; 55; 90; 168; 67; 99; 30; 18; 140; 142; 10; 152; 53; 112; 206; 32; 174; 250; 80; 108; 219; 27; 73; 161; 199; 11; 136; 156; 64; 186; 29; 153; 116; 22; 253; 191; 250; 235; 248; 22; 21; 23; 47; 190; 153; 43; 21; 201; 204; 133; 118; 166; 233; 146; 38; 89; 101; 168; 36; 140; 155; 31; 205; 125; 139; 11; 231; 41; 69; 176; 138; 11; 8; 15; 75; 228; 3; 83; 64; 22; 193; 164; 61; 242; 208; 211; 49; 25; 103; 135; 25; 187; 128; 121; 161; 152; 98; 225; 193; 193; 10; 151; 82; 172; 57; 61; 0; 5; 205; 169; 144; 41; 218; 152; 237; 117; 51; 105; 7; 67; 77; 134; 103; 153; 6; 60; 201; 236; 39; 58; 103; 224; 135; 48; 95; 240; 177; 102; 225; 56; 76; 255; 154; 144; 105; 128; 187; 172; 225; 136; 249; 137; 59; 233; 247; 183; 71; 82; 177; 180; 147; 106; 167; 165; 243; 185; 64; 125; 24; 84; 243; 127; 2; 88; 73; 71; 77; 129; 237; 173; 250; 212; 52; 2; 226; 48; 205; 93; 8; 180; 120; 30; 216; 211; 109; 26; 110; 96; 227; 17; 215; 184; 166; 98; 183; 41; 86; 84; 144; 211; 113; 155; 85; 19; 156; 165; 114; 219; 209; 146; 143; 133; 199; 7; 46; 74; 58; 78; 207; 101; 20; 137; 54; 21; 8; 248; 106; 193; 158; 252; 83; 100; 253; 254; 23; 253; 251; 159; 18; 161; 168; 235; 230; 79; 130; 108; 92; 215; 90; 25; 4; 228; 100; 154; 100; 203; 62; 12; 66; 123; 38; 250; 203; 101; 84; 37; 31; 198; 192; 101; 105; 208; 34; 143; 248; 173; 129; 194; 84; 167; 221; 7; 172; 110; 9; 240; 221; 48; 17; 0; 186; 254; 24; 190; 252; 57; 36; 167; 57; 153; 40; 228; 247; 148; 241; 163; 25; 211; 235; 16; 187; 101; 28; 84; 223; 173; 153; 50; 143; 147; 128; 229; 43; 162; 39; 156; 171; 1; 10; 131; 194; 129; 117; 199; 5; 56; 189; 217; 183; 91; 147; 205; 46; 237; 19; 174; 141; 136; 194; 59; 59; 159; 51; 21; 39; 58; 104; 96; 239; 174; 66; 160; 112; 8; 125; 52; 99; 83; 215; 173; 203; 182; 250; 197; 124; 36; 199; 215; 109; 17; 98; 195; 174; 47; 176; 14; 188; 208; 46; 66; 139; 157; 169; 2; 78; 253; 255; 30; 181; 160; 253; 17; 46; 219; 209; 91; 122; 16; 32; 78; 221; 216; 207; 143; 167; 103; 52; 120; 185; 49; 198; 144; 153; 194; 154; 141; 254; 204; 19; 187; 17; 3; 100; 8; 132; 38; 153; 181; 194; 29; 198; 74; 35; 19; 138; 211; 160; 34; 218; 202; 45; 10; 229; 136; 35; 65; 72; 209; 211; 78; 46; 71; 70; 116; 6; 18; 69; 148; 235; 203; 21; 142; 180; 139; 18; 196; 122; 232; 28; 3; 136; 10; 158; 147; 135; 177; 234; 19; 229; 93; 206; 112; 131; 17; 242; 4; 87; 253; 37; 163; 119; 166; 193; 56; 126; 94; 58; 254; 84; 143; 77; 170; 119; 120; 167; 254; 157; 167; 5; 68; 116; 210; 70; 106; 179; 117; 68; 39; 149; 152; 185; 19; 8; 40; 173; 111; 177; 236; 133; 14; 24; 208; 120; 124; 150; 190; 28; 88; 19; 105; 70; 192; 213; 45; 172; 188; 157; 105; 231; 173; 157; 134; 45; 17; 177; 104; 240; 232; 246; 10; 94; 200; 23; 171; 173; 18; 197; 63; 196; 225; 188; 189; 36; 32; 247; 150; 167; 134; 37; 51; 54; 33; 194; 243; 147; 125; 62; 200; 47; 203; 172; 247; 42; 204; 209; 164; 87; 177; 82; 124; 65; 154; 235; 183; 62; 60; 230; 146; 25; 220; 79; 40; 126; 194; 149; 39; 209; 254; 20; 184; 133; 65; 67; 52; 131; 240; 148; 245; 13; 67; 177; 208; 182; 255; 23; 219; 40; 48; 228; 245; 107; 97; 149; 165; 246; 52; 139; 91; 44; 38; 39; 223; 114; 176; 186; 55; 184; 171; 80; 96; 242; 167; 135; 107; 55; 9; 237; 116; 0; 181; 237; 153; 63; 68; 86; 83; 102; 192; 86; 57; 123; 156; 110; 113; 239; 94; 196; 2; 204; 21; 127; 53; 13; 164; 6; 50; 253; 227; 232; 250; 45; 122; 2; 98; 33; 159; 235; 59; 46; 226; 9; 184; 139; 33; 96; 54; 97; 230; 105; 223; 241; 118; 194; 103; 168; 56; 111; 31; 57; 62; 136; 15; 132; 245; 241; 246; 1; 131; 71; 214; 211; 199; 100; 101; 225; 225; 91; 127; 11; 111; 7; 7; 70; 110; 65; 101; 87; 165; 31; 255; 169; 248; 230; 72; 148; 212; 182; 222; 146; 168; 106; 250; 171; 13; 37; 162; 4; 12; 0; 87; 233; 141; 90; 84; 188; 126; 163; 146; 199; 250; 117; 16; 61; 135; 30; 222; 88; 208; 63; 117; 118; 111; 127; 15; 22; 253; 23; 116; 164; 221; 24; 121; 62; 202; 166; 203; 44; 36; 161; 154; 147; 57; 158; 183; 54; 246; 209; 224; 162; 184; 83; 187; 176; 222; 205; 220; 22; 46; 108; 36; 186; 5; 94; 61; 79; 136; 68; 98; 244; 91; 111; 4; 75; 24; 42; 25; 83; 26; 236; 186; 163; 9; 13; 157; 217; 74; 203; 132; 125; 166; 148; 132; 5; 236; 179; 214; 65; 35; 171; 234; 162; 178; 235; 92; 234; 138; 158; 61; 16; 70; 129; 185; 57; 67; 89; 151; 196; 187; 90; 12; 54; 51; 45; 7; 188; 104; 153; 188; 134; 240; 81; 1; 47; 222; 26; 229; 176; 237; 124; 82; 192; 146; 23; 71; 92; 3; 30; 141; 56; 173; 63; 49; 188; 53; 97; 236; 136; 247; 168; 148; 174; 221; 84; 185; 127; 61; 76; 126; 79; 54; 79; 230; 78; 180; 118; 65; 22; 207; 242; 239; 235; 143; 208; 189; 75; 252; 32; 107; 114; 97; 109; 123; 28; 192; 83; 145; 199; 166; 180; 239; 12; 161; 35; 198; 240; 2; 217; 242; 39; 191; 39; 245; 117; 74; 140; 84; 129; 54; 144; 82; 82; 201; 231; 36; 46; 51; 182; 199; 250; 223; 127; 202; 255; 156; 87; 42; 6; 68; 136; 141; 48; 32; 84; 51; 142; 163; 120; 168; 178; 214; 237; 39; 73; 102; 225; 25; 204; 145; 70; 71; 217; 112; 14; 177; 148; 250; 223; 80; 172; 75; 117; 229; 42; 33; 124; 26; 111; 17; 227; 19; 236; 157; 0; 125; 228; 147; 47; 56; 3; 220; 40; 185; 203; 153; 53; 239; 219; 178; 218; 21; 4; 222; 239; 29; 221; 34; 245; 57; 71; 216; 4; 232; 15; 141; 130; 154; 101; 190; 42; 225; 230; 244; 49; 253; 181; 196; 91; 171; 69; 233; 232; 213; 20; 62; 122; 181; 183; 136; 81; 14; 22; 99; 47; 147; 214; 66; 158; 236; 249; 57; 211; 156; 45; 191; 216; 79; 66; 200; 186; 198; 133; 68; 2; 2; 117; 97; 24; 8; 201; 34; 144; 222; 173; 102; 208; 172; 206; 254; 235; 246; 205; 104; 91; 178; 217; 186; 214; 165; 95; 196; 66; 93; 170; 2; 175; 91; 251; 138; 8; 133; 20; 226; 74; 78; 58; 42; 252; 133; 6; 96; 255; 161; 54; 104; 199; 199; 194; 86; 66; 18; 217; 33; 157; 144; 172; 1; 100; 29; 5; 83; 190; 168; 98; 239; 143; 74; 56; 49; 29; 68; 78; 70; 234; 225; 151; 252; 243; 112; 8; 180; 120; 199; 239; 255; 243; 72; 26; 161; 59; 225; 192; 139; 83; 240; 167; 152; 94; 135; 117; 72; 251; 108; 87; 125; 228; 17; 209; 86; 71; 112; 65; 137; 228; 248; 251; 63; 254; 148; 234; 219; 75; 5; 255; 95; 28; 64; 203; 217; 157; 159; 212; 8; 165; 155; 36; 149; 180; 115; 146; 87; 153; 255; 250; 217; 48; 236; 43; 145; 96; 65; 94; 168; 9; 82; 186; 27; 188; 74; 162; 5; 133; 186; 49; 129; 175; 244; 31; 226; 40; 70; 248; 46; 223; 147; 240; 216; 40; 6; 50; 51; 82; 130; 4; 240; 217; 200; 145; 97; 194; 99; 168; 65; 184; 203; 170; 185; 158; 228; 128; 221; 215; 122; 111; 99; 197; 182; 30; 252; 139; 214; 25; 9; 213; 146; 32; 198; 150; 38; 129; 0; 36; 87; 34; 9; 38; 92; 215; 157; 66; 198; 162; 114; 154; 86; 31; 248; 134; 230; 53; 19; 101; 177; 114; 99; 11; 253; 165; 141; 34; 109; 180; 251; 252; 43; 155; 29; 245; 111; 104; 39; 28; 192; 213; 142; 116; 97; 65; 106; 31; 158; 176; 193; 66; 144; 117; 15; 87; 17; 249; 216; 12; 81; 96; 29; 83; 83; 226; 252; 184; 25; 70; 131; 95; 149; 249; 17; 132; 241; 25; 27; 67; 214; 3; 201; 227; 121; 15; 133; 35; 218; 6; 32; 248; 52; 174; 83; 23; 142; 171; 57; 43; 51; 86; 195; 1; 218; 168; 9; 225; 190; 240; 105; 46; 14; 234; 147; 240; 12; 160; 65; 168; 213; 108; 224; 100; 107; 44; 245; 249; 235; 231; 138; 189; 71; 153; 143; 233; 219; 31; 108; 60; 157; 198; 208; 28; 10; 97; 188; 80; 131; 155; 190; 171; 117; 244; 114; 88; 248; 34; 154; 219; 195; 39; 137; 34; 212; 29; 70; 213; 199; 117; 88; 24; 116; 229; 65; 70; 80; 82; 6; 19; 246; 115; 112; 35; 238; 114; 99; 21; 124; 232; 3; 204; 169; 230; 145; 216; 115; 67; 182; 131; 252; 165; 178; 151; 175; 249; 107; 226; 93; 115; 212; 37; 215; 230; 223; 139; 133; 64; 225; 24; 165; 78; 89; 248; 122; 132; 123; 158; 110; 148; 132; 14; 21; 88; 178; 57; 212; 92; 202; 48; 223; 140; 94; 89; 18; 186; 80; 53; 185; 44; 92; 199; 210; 23; 82; 186; 211; 90; 30; 129; 54; 12; 178; 160; 202; 14; 228; 147; 113; 168; 154; 29; 105; 103; 208; 95; 189; 108; 102; 0; 230; 8; 232; 21; 22; 202; 9; 86; 42; 244; 237; 72; 167; 142; 198; 118; 84; 222; 112; 252; 230; 223; 17; 18; 187; 34; 144; 227; 38; 173; 189; 93; 232; 101; 174; 215; 139; 198; 231; 66; 190; 254; 30; 13; 10; 4; 84; 252; 24; 30; 213; 91; 80; 91; 205; 3; 241; 146; 122; 128; 72; 162; 178; 232; 54; 13; 120; 238; 251; 223; 15; 251; 87; 86; 222; 100; 30; 91; 221; 155; 66; 101; 68; 113; 72; 108; 173; 57; 40; 165; 40; 52; 70; 9; 141; 164; 159; 105; 253; 190; 160; 170; 188; 126; 180; 94; 7; 86; 234; 46; 18; 16; 53; 9; 157; 171; 112; 175; 63; 144; 140; 219; 203; 235; 171; 79; 97; 125; 157; 240; 63; 62; 141; 25; 234; 18; 33; 60; 98; 216; 193; 255; 194; 116; 254; 89; 177; 135; 48; 220; 235; 62; 123; 86; 146; 245; 129; 191; 75; 75; 158; 245; 15; 2; 196; 197; 165; 106; 206; 17; 151; 106; 87; 224; 213; 196; 2; 180; 180; 106; 66; 186; 215; 164; 52; 13; 240; 196; 236; 144; 217; 198; 30; 78; 205; 94; 172; 25; 206; 114; 12; 214; 59; 201; 9; 245; 226; 132; 167; 208; 230; 179; 24; 44; 49; 18; 53; 23; 91; 175; 183; 238; 83; 59; 47; 30; 150; 132; 51; 254; 132; 54; 69; 2; 228; 240; 225; 91; 50; 69; 22; 197; 236; 156; 167; 67; 242; 182; 228; 205; 161; 141; 218; 47; 172; 41; 29; 164; 28; 89; 50; 190; 138; 154; 53; 147; 207; 136; 21; 107; 243; 26; 43; 190; 107; 99; 158; 48; 133; 95; 109; 151; 3; 126; 234; 21; 224; 30; 65; 35; 78; 230; 196; 19; 110; 211; 119; 238; 222; 34; 92; 128; 187; 214; 1; 110; 171; 201; 117; 72; 236; 173; 218; 143; 148; 20; 201; 152; 149; 186; 70; 2; 94; 67; 154; 60; 61; 125; 53; 64; 107; 84; 74; 102; 193; 170; 168; 88; 213; 63; 250; 224; 19; 235; 177; 83; 182; 221; 21; 172; 83; 207; 77; 16; 46; 59; 176; 23; 251; 137; 51; 79; 92; 50; 66; 134; 130; 52; 21; 201; 207; 212; 43; 253; 89; 238; 88; 186; 35; 70; 138; 142; 152; 196; 200; 173; 81; 132; 172; 212; 68; 65; 10; 249; 71; 216; 60; 61; 169; 29; 172; 18; 27; 187; 230; 45; 230; 175; 237; 169; 186; 15; 74; 214; 254; 191; 40; 171; 38; 63; 164; 33; 38; 214; 115; 81; 50; 219; 232; 195; 33; 59; 38; 231; 209; 89; 96; 229; 228; 104; 10; 71; 212; 40; 53; 202; 121; 104; 249; 212; 200; 86; 121; 205; 88; 138; 111; 122; 216; 110; 103; 47; 68; 79; 147; 238; 120; 232; 145; 13; 121; 228; 254; 15; 207; 252; 106; 208; 160; 59; 159; 139; 251; 16; 159; 98; 227; 215; 177; 177; 198; 109; 170; 125; 206; 31; 56; 152; 165; 165; 170; 53; 252; 100; 51; 167; 118; 254; 127; 45; 101; 63; 90; 73; 164; 239; 147; 94; 91; 72; 26; 38; 123; 75; 44; 179; 145; 204; 154; 206; 36; 118; 205; 171; 104; 39; 115; 41; 73; 37; 182; 102; 136; 94; 158; 172; 14; 60; 16; 250; 93; 163; 24; 250; 75; 154; 176; 71; 74; 64; 216; 36; 247; 65; 73; 65; 175; 246; 7; 154; 86; 60; 139; 120; 171; 177; 99; 85; 19; 14; 80; 211; 234; 127; 198; 63; 75; 21; 87; 168; 4; 55; 192; 53; 119; 196; 96; 137; 128; 78; 2; 39; 110; 243; 136; 130; 166; 127; 83; 121; 116; 36; 2; 226; 63; 185; 223; 197; 247; 74; 244; 71; 17; 0; 214; 87; 5; 235; 40; 91; 229; 222; 80; 7; 104; 113; 125; 255; 119; 192; 235; 117; 50; 75; 160; 210; 105; 107; 113; 207; 2; 41; 29; 233; 79; 116; 252; 105; 106; 180; 76; 191; 75; 126; 250; 210; 8; 126; 83; 192; 205; 122; 208; 74; 198; 83; 220; 2; 239; 7; 94; 237; 130; 235; 74; 195; 81; 209; 21; 204; 6; 93; 49; 215; 186; 10; 131; 152; 35; 133; 55; 200; 26; 34; 191; 115; 177; 168; 239; 79; 174; 211; 215; 178; 3; 253; 135; 96; 29; 96; 175; 56; 148; 115; 244; 105; 107; 67; 178; 204; 225; 168; 60; 38; 157; 75; 107; 35; 200; 193; 188; 250; 180; 255; 224; 241; 218; 57; 107; 89; 188; 54; 140; 115; 25; 32; 89; 193; 251; 251; 33; 89; 43; 38; 21; 138; 131; 185; 193; 230; 136; 41; 233; 254; 106; 64; 232; 216; 238; 201; 216; 47; 55; 148; 83; 156; 54; 104; 229; 100; 30; 41; 206; 242; 36; 205; 225; 178; 124; 195; 123; 91; 157; 166; 144; 18; 153; 218; 197; 188; 213; 1; 121; 166; 80; 94; 86; 218; 167; 194; 35; 254; 172; 102; 226; 168; 151; 36; 115; 90; 0; 170; 155; 126; 228; 144; 140; 63; 62; 166; 65; 5; 237; 62; 27; 114; 167; 96; 166; 39; 88; 65; 119; 108; 102; 91; 252; 202; 29; 119; 242; 244; 232; 51; 143; 69; 0; 53; 139; 212; 232; 220; 8; 24; 149; 143; 113; 246; 255; 165; 134; 4; 13; 22; 103; 117; 146; 184; 41; 83; 185; 159; 154; 225; 143; 79; 252; 235; 19; 234; 188; 92; 180; 138; 224; 29; 80; 89; 49; 57; 40; 135; 58; 84; 157; 77; 173; 216; 29; 67; 138; 159; 103; 47; 242; 25; 153; 155; 177; 178; 128; 32; 182; 170; 226; 10; 211; 19; 184; 239; 68; 134; 223; 94; 110; 120; 244; 131; 209; 123; 8; 34; 199; 86; 160; 55; 59; 186; 40; 253; 35; 53; 119; 10; 129; 37; 247; 210; 150; 185; 129; 241; 148; 156; 72; 25; 88; 139; 164; 82; 55; 175; 191; 254; 227; 182; 57; 126; 66; 123; 227; 39; 102; 58; 48; 131; 182; 122; 166; 27; 60; 231; 80; 172; 99; 93; 81; 8; 177; 118; 173; 254; 131; 98; 167; 94; 38; 0; 96; 124; 238; 99; 166; 170; 171; 163; 188; 188; 199; 118; 56; 87; 238; 199; 64; 128; 42; 93; 255; 7; 121; 130; 224; 41; 19; 59; 55; 184; 156; 44; 89; 235; 247; 28; 146; 195; 32; 153; 41; 6; 130; 92; 245; 47; 132; 161; 4; 188; 85; 105; 29; 237; 28; 27; 248; 27; 182; 244; 147; 116; 144; 72; 241; 26; 230; 238; 43; 230; 110; 13; 3; 78; 129; 14; 142; 66; 199; 221; 208; 223; 122; 226; 69; 79; 241; 106; 40; 221; 162; 194; 178; 202; 27; 212; 90; 129; 221; 109; 8; 13; 11; 171; 202; 235; 68; 128; 121; 191; 19; 137; 163; 27; 165; 151; 217; 102; 123; 27; 63; 4; 224; 91; 140; 1; 151; 205; 20; 164; 92; 117; 63; 119; 203; 255; 166; 164; 49; 247; 112; 210; 198; 48; 229; 228; 218; 101; 49; 79; 76; 185; 86; 201; 78; 117; 2; 61; 145; 6; 19; 164; 171; 168; 95; 125; 12; 115; 0; 174; 155; 48; 206; 138; 228; 116; 16; 180; 55; 148; 92; 92; 147; 29; 14; 212; 7; 43; 159; 0; 4; 3; 140; 35; 155; 6; 248; 152; 224; 241; 83; 139; 57; 141; 225; 143; 112; 201; 36; 127; 67; 116; 159; 170; 173; 33; 240; 198; 37; 177; 68; 50; 48; 201; 229; 141; 105; 213; 150; 215; 50; 81; 119; 80; 235; 246; 125; 33; 108; 29; 135; 253; 84; 183; 31; 0; 0; 147; 32; 125; 231; 53; 63; 240; 56; 191; 247; 54; 10; 58; 15; 154; 31; 233; 120; 37; 3; 223; 58; 75; 117; 156; 251; 68; 199; 248; 89; 203; 173; 88; 185; 167; 187; 133; 58; 196; 236; 39; 91; 153; 145; 248; 241; 182; 207; 72; 186; 149; 25; 8; 46; 153; 153; 123; 209; 0; 20; 220; 124; 95; 130; 251; 34; 122; 6; 127; 33; 67; 115; 137; 147; 42; 84; 99; 100; 223; 195; 76; 12; 239; 113; 212; 140; 102; 31; 162; 51; 151; 172; 135; 50; 220; 85; 240; 112; 162; 255; 144; 239; 229; 11; 15; 1; 96; 187; 205; 36; 220; 112; 144; 225; 60; 64; 176; 13; 105; 224; 222; 51; 49; 56; 184; 79; 199; 114; 27; 17; 47; 51; 195; 76; 18; 211; 159; 26; 63; 181; 78; 216; 183; 45; 144; 96; 100; 63; 102; 251; 29; 68; 8; 64; 166; 97; 12; 42; 201; 231; 236; 125; 105; 45; 20; 22; 106; 197; 192; 152; 131; 239; 79; 27; 191; 72; 249; 61; 194; 208; 238; 226; 182; 44; 244; 87; 9; 116; 191; 136; 112; 5; 221; 208; 131; 128; 47; 100; 154; 243; 99; 195; 135; 246; 221; 163; 15; 248; 26; 40; 246; 201; 250; 251; 43; 8; 19; 172; 201; 55; 115; 103; 151; 216; 21; 237; 241; 73; 13; 192; 224; 12; 31; 25; 77; 234; 187; 190; 86; 147; 121; 26; 49; 167; 242; 166; 189; 202; 129; 95; 199; 27; 214; 181; 248; 75; 170; 204; 104; 105; 90; 44; 76; 149; 172; 110; 195; 238; 42; 181; 79; 169; 117; 89; 87; 48; 7; 200; 0; 129; 127; 244; 98; 191; 12; 8; 38; 130; 17; 59; 35; 239; 94; 178; 167; 22; 178; 225; 241; 56; 121; 225; 210; 44; 20; 100; 206; 190; 76; 160; 69; 131; 123; 68; 169; 213; 71; 111; 12; 71; 139; 15; 154; 183; 226; 76; 201; 115; 44; 4; 45; 42; 174; 98; 84; 176; 28; 24; 16; 4; 202; 231; 189; 207; 135; 224; 182; 25; 114; 231; 46; 169; 123; 150; 117; 56; 65; 101; 30; 114; 219; 79; 248; 149; 78; 62; 111; 11; 27; 92; 187; 47; 201; 149; 108; 65; 77; 140; 164; 79; 227; 209; 18; 53; 94; 253; 137].
