(** Model of the two CRC routines: crc16 of lib/gensio_msgdelim.c and
    crc16_ccitt of lib/crc.h (used by hdlc, ax25, axfec, afskmdm/fsk). *)
From Verif Require Import Base.
Open Scope Z_scope.

(** crc16_table, lib/gensio_msgdelim.c:19-52 *)
Definition crc16_table : list Z :=
  [0; 4129; 8258; 12387; 16516; 20645; 24774; 28903;
   33032; 37161; 41290; 45419; 49548; 53677; 57806; 61935;
   4657; 528; 12915; 8786; 21173; 17044; 29431; 25302;
   37689; 33560; 45947; 41818; 54205; 50076; 62463; 58334;
   9314; 13379; 1056; 5121; 25830; 29895; 17572; 21637;
   42346; 46411; 34088; 38153; 58862; 62927; 50604; 54669;
   13907; 9842; 5649; 1584; 30423; 26358; 22165; 18100;
   46939; 42874; 38681; 34616; 63455; 59390; 55197; 51132;
   18628; 22757; 26758; 30887; 2112; 6241; 10242; 14371;
   51660; 55789; 59790; 63919; 35144; 39273; 43274; 47403;
   23285; 19156; 31415; 27286; 6769; 2640; 14899; 10770;
   56317; 52188; 64447; 60318; 39801; 35672; 47931; 43802;
   27814; 31879; 19684; 23749; 11298; 15363; 3168; 7233;
   60846; 64911; 52716; 56781; 44330; 48395; 36200; 40265;
   32407; 28342; 24277; 20212; 15891; 11826; 7761; 3696;
   65439; 61374; 57309; 53244; 48923; 44858; 40793; 36728;
   37256; 33193; 45514; 41451; 53516; 49453; 61774; 57711;
   4224; 161; 12482; 8419; 20484; 16421; 28742; 24679;
   33721; 37784; 41979; 46042; 49981; 54044; 58239; 62302;
   689; 4752; 8947; 13010; 16949; 21012; 25207; 29270;
   46570; 42443; 38312; 34185; 62830; 58703; 54572; 50445;
   13538; 9411; 5280; 1153; 29798; 25671; 21540; 17413;
   42971; 47098; 34713; 38840; 59231; 63358; 50973; 55100;
   9939; 14066; 1681; 5808; 26199; 30326; 17941; 22068;
   55628; 51565; 63758; 59695; 39368; 35305; 47498; 43435;
   22596; 18533; 30726; 26663; 6336; 2273; 14466; 10403;
   52093; 56156; 60223; 64286; 35833; 39896; 43963; 48026;
   19061; 23124; 27191; 31254; 2801; 6864; 10931; 14994;
   64814; 60687; 56684; 52557; 48554; 44427; 40424; 36297;
   31782; 27655; 23652; 19525; 15522; 11395; 7392; 3265;
   61215; 65342; 53085; 57212; 44955; 49082; 36825; 40952;
   28183; 32310; 20053; 24180; 11923; 16050; 3793; 7920].

(** ccitt_table, lib/crc.h:9-42 *)
Definition ccitt_table : list Z :=
  [0; 4489; 8978; 12955; 17956; 22445; 25910; 29887;
   35912; 40385; 44890; 48851; 51820; 56293; 59774; 63735;
   4225; 264; 13203; 8730; 22181; 18220; 30135; 25662;
   40137; 36160; 49115; 44626; 56045; 52068; 63999; 59510;
   8450; 12427; 528; 5017; 26406; 30383; 17460; 21949;
   44362; 48323; 36440; 40913; 60270; 64231; 51324; 55797;
   12675; 8202; 4753; 792; 30631; 26158; 21685; 17724;
   48587; 44098; 40665; 36688; 64495; 60006; 55549; 51572;
   16900; 21389; 24854; 28831; 1056; 5545; 10034; 14011;
   52812; 57285; 60766; 64727; 34920; 39393; 43898; 47859;
   21125; 17164; 29079; 24606; 5281; 1320; 14259; 9786;
   57037; 53060; 64991; 60502; 39145; 35168; 48123; 43634;
   25350; 29327; 16404; 20893; 9506; 13483; 1584; 6073;
   61262; 65223; 52316; 56789; 43370; 47331; 35448; 39921;
   29575; 25102; 20629; 16668; 13731; 9258; 5809; 1848;
   65487; 60998; 56541; 52564; 47595; 43106; 39673; 35696;
   33800; 38273; 42778; 46739; 49708; 54181; 57662; 61623;
   2112; 6601; 11090; 15067; 20068; 24557; 28022; 31999;
   38025; 34048; 47003; 42514; 53933; 49956; 61887; 57398;
   6337; 2376; 15315; 10842; 24293; 20332; 32247; 27774;
   42250; 46211; 34328; 38801; 58158; 62119; 49212; 53685;
   10562; 14539; 2640; 7129; 28518; 32495; 19572; 24061;
   46475; 41986; 38553; 34576; 62383; 57894; 53437; 49460;
   14787; 10314; 6865; 2904; 32743; 28270; 23797; 19836;
   50700; 55173; 58654; 62615; 32808; 37281; 41786; 45747;
   19012; 23501; 26966; 30943; 3168; 7657; 12146; 16123;
   54925; 50948; 62879; 58390; 37033; 33056; 46011; 41522;
   23237; 19276; 31191; 26718; 7393; 3432; 16371; 11898;
   59150; 63111; 50204; 54677; 41258; 45219; 33336; 37809;
   27462; 31439; 18516; 23005; 11618; 15595; 3696; 8185;
   63375; 58886; 54429; 50452; 45483; 40994; 37561; 33584;
   31687; 27214; 22741; 18780; 15843; 11370; 7921; 3960].

(** Loop body of crc16, lib/gensio_msgdelim.c:61; the assignment to a
    uint16_t keeps the low 16 bits. *)
Definition crc16_byte (crc b : Z) : Z :=
  Z.land (Z.lxor (Z.shiftl crc 8)
                 (nth (Z.to_nat (Z.land (Z.lxor (Z.shiftr crc 8) b) 255)) crc16_table 0)) 65535.

(** crc16, lib/gensio_msgdelim.c:54-64 *)
Definition crc16 (buf : list Z) (crc : Z) : Z := fold_left crc16_byte buf crc.

(** Loop body of crc16_ccitt, lib/crc.h:51 *)
Definition ccitt_byte (crc b : Z) : Z :=
  Z.lxor (Z.shiftr crc 8) (nth (Z.to_nat (Z.land (Z.lxor crc b) 255)) ccitt_table 0).

(** crc16_ccitt, lib/crc.h:44-54 *)
Definition crc16_ccitt (buf : list Z) (crc : Z) : Z := fold_left ccitt_byte buf crc.
