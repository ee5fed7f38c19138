(** Index tables of Big5. Copied from lib/whatwg/encoding/indexes_code_point.cpp and indexes_pointer.cpp;
    4294967295 stands for a missing entry. Data only. *)
From Coq Require Import ZArith List.
Import ListNotations.
Open Scope Z_scope.

(** indexes_code_point.cpp:5 *)
Definition index_code_point_big5 : list Z := concat [
  [4294967295; 4294967295; 4294967295; 4294967295; 4294967295; 4294967295; 4294967295; 4294967295; 4294967295; 4294967295; 4294967295; 4294967295; 4294967295; 4294967295; 4294967295; 4294967295; 4294967295; 4294967295; 4294967295; 4294967295; 4294967295; 4294967295; 4294967295; 4294967295; 4294967295; 4294967295; 4294967295; 4294967295; 4294967295; 4294967295; 4294967295; 4294967295; 4294967295; 4294967295; 4294967295; 4294967295; 4294967295; 4294967295; 4294967295; 4294967295; 4294967295; 4294967295; 4294967295; 4294967295; 4294967295; 4294967295; 4294967295; 4294967295; 4294967295; 4294967295; 4294967295; 4294967295; 4294967295; 4294967295; 4294967295; 4294967295; 4294967295; 4294967295; 4294967295; 4294967295; 4294967295; 4294967295; 4294967295; 4294967295; 4294967295; 4294967295; 4294967295; 4294967295; 4294967295; 4294967295; 4294967295; 4294967295; 4294967295; 4294967295; 4294967295; 4294967295; 4294967295; 4294967295; 4294967295; 4294967295; 4294967295; 4294967295; 4294967295; 4294967295; 4294967295; 4294967295; 4294967295; 4294967295; 4294967295; 4294967295; 4294967295; 4294967295; 4294967295; 4294967295; 4294967295; 4294967295; 4294967295; 4294967295; 4294967295; 4294967295; 4294967295; 4294967295; 4294967295; 4294967295; 4294967295; 4294967295; 4294967295; 4294967295; 4294967295; 4294967295; 4294967295; 4294967295; 4294967295; 4294967295; 4294967295; 4294967295; 4294967295; 4294967295; 4294967295; 4294967295; 4294967295; 4294967295; 4294967295; 4294967295; 4294967295; 4294967295; 4294967295; 4294967295; 4294967295; 4294967295; 4294967295; 4294967295; 4294967295; 4294967295; 4294967295; 4294967295; 4294967295; 4294967295; 4294967295; 4294967295; 4294967295; 4294967295; 4294967295; 4294967295; 4294967295; 4294967295; 4294967295; 4294967295; 4294967295; 4294967295; 4294967295; 4294967295; 4294967295; 4294967295; 4294967295; 4294967295; 4294967295];
  [4294967295; 4294967295; 4294967295; 4294967295; 4294967295; 4294967295; 4294967295; 4294967295; 4294967295; 4294967295; 4294967295; 4294967295; 4294967295; 4294967295; 4294967295; 4294967295; 4294967295; 4294967295; 4294967295; 4294967295; 4294967295; 4294967295; 4294967295; 4294967295; 4294967295; 4294967295; 4294967295; 4294967295; 4294967295; 4294967295; 4294967295; 4294967295; 4294967295; 4294967295; 4294967295; 4294967295; 4294967295; 4294967295; 4294967295; 4294967295; 4294967295; 4294967295; 4294967295; 4294967295; 4294967295; 4294967295; 4294967295; 4294967295; 4294967295; 4294967295; 4294967295; 4294967295; 4294967295; 4294967295; 4294967295; 4294967295; 4294967295; 4294967295; 4294967295; 4294967295; 4294967295; 4294967295; 4294967295; 4294967295; 4294967295; 4294967295; 4294967295; 4294967295; 4294967295; 4294967295; 4294967295; 4294967295; 4294967295; 4294967295; 4294967295; 4294967295; 4294967295; 4294967295; 4294967295; 4294967295; 4294967295; 4294967295; 4294967295; 4294967295; 4294967295; 4294967295; 4294967295; 4294967295; 4294967295; 4294967295; 4294967295; 4294967295; 4294967295; 4294967295; 4294967295; 4294967295; 4294967295; 4294967295; 4294967295; 4294967295; 4294967295; 4294967295; 4294967295; 4294967295; 4294967295; 4294967295; 4294967295; 4294967295; 4294967295; 4294967295; 4294967295; 4294967295; 4294967295; 4294967295; 4294967295; 4294967295; 4294967295; 4294967295; 4294967295; 4294967295; 4294967295; 4294967295; 4294967295; 4294967295; 4294967295; 4294967295; 4294967295; 4294967295; 4294967295; 4294967295; 4294967295; 4294967295; 4294967295; 4294967295; 4294967295; 4294967295; 4294967295; 4294967295; 4294967295; 4294967295; 4294967295; 4294967295; 4294967295; 4294967295; 4294967295; 4294967295; 4294967295; 4294967295; 4294967295; 4294967295; 4294967295; 4294967295; 4294967295; 4294967295; 4294967295; 4294967295; 4294967295];
  [4294967295; 4294967295; 4294967295; 4294967295; 4294967295; 4294967295; 4294967295; 4294967295; 4294967295; 4294967295; 4294967295; 4294967295; 4294967295; 4294967295; 4294967295; 4294967295; 4294967295; 4294967295; 4294967295; 4294967295; 4294967295; 4294967295; 4294967295; 4294967295; 4294967295; 4294967295; 4294967295; 4294967295; 4294967295; 4294967295; 4294967295; 4294967295; 4294967295; 4294967295; 4294967295; 4294967295; 4294967295; 4294967295; 4294967295; 4294967295; 4294967295; 4294967295; 4294967295; 4294967295; 4294967295; 4294967295; 4294967295; 4294967295; 4294967295; 4294967295; 4294967295; 4294967295; 4294967295; 4294967295; 4294967295; 4294967295; 4294967295; 4294967295; 4294967295; 4294967295; 4294967295; 4294967295; 4294967295; 4294967295; 4294967295; 4294967295; 4294967295; 4294967295; 4294967295; 4294967295; 4294967295; 4294967295; 4294967295; 4294967295; 4294967295; 4294967295; 4294967295; 4294967295; 4294967295; 4294967295; 4294967295; 4294967295; 4294967295; 4294967295; 4294967295; 4294967295; 4294967295; 4294967295; 4294967295; 4294967295; 4294967295; 4294967295; 4294967295; 4294967295; 4294967295; 4294967295; 4294967295; 4294967295; 4294967295; 4294967295; 4294967295; 4294967295; 4294967295; 4294967295; 4294967295; 4294967295; 4294967295; 4294967295; 4294967295; 4294967295; 4294967295; 4294967295; 4294967295; 4294967295; 4294967295; 4294967295; 4294967295; 4294967295; 4294967295; 4294967295; 4294967295; 4294967295; 4294967295; 4294967295; 4294967295; 4294967295; 4294967295; 4294967295; 4294967295; 4294967295; 4294967295; 4294967295; 4294967295; 4294967295; 4294967295; 4294967295; 4294967295; 4294967295; 4294967295; 4294967295; 4294967295; 4294967295; 4294967295; 4294967295; 4294967295; 4294967295; 4294967295; 4294967295; 4294967295; 4294967295; 4294967295; 4294967295; 4294967295; 4294967295; 4294967295; 4294967295; 4294967295];
  [4294967295; 4294967295; 4294967295; 4294967295; 4294967295; 4294967295; 4294967295; 4294967295; 4294967295; 4294967295; 4294967295; 4294967295; 4294967295; 4294967295; 4294967295; 4294967295; 4294967295; 4294967295; 4294967295; 4294967295; 4294967295; 4294967295; 4294967295; 4294967295; 4294967295; 4294967295; 4294967295; 4294967295; 4294967295; 4294967295; 4294967295; 4294967295; 4294967295; 4294967295; 4294967295; 4294967295; 4294967295; 4294967295; 4294967295; 4294967295; 4294967295; 4294967295; 4294967295; 4294967295; 4294967295; 4294967295; 4294967295; 4294967295; 4294967295; 4294967295; 4294967295; 4294967295; 4294967295; 4294967295; 4294967295; 4294967295; 4294967295; 4294967295; 4294967295; 4294967295; 4294967295; 4294967295; 4294967295; 4294967295; 4294967295; 4294967295; 4294967295; 4294967295; 4294967295; 4294967295; 4294967295; 4294967295; 4294967295; 4294967295; 4294967295; 4294967295; 4294967295; 4294967295; 4294967295; 4294967295; 4294967295; 4294967295; 4294967295; 4294967295; 4294967295; 4294967295; 4294967295; 4294967295; 4294967295; 4294967295; 4294967295; 4294967295; 4294967295; 4294967295; 4294967295; 4294967295; 4294967295; 4294967295; 4294967295; 4294967295; 4294967295; 4294967295; 4294967295; 4294967295; 4294967295; 4294967295; 4294967295; 4294967295; 4294967295; 4294967295; 4294967295; 4294967295; 4294967295; 4294967295; 4294967295; 4294967295; 4294967295; 4294967295; 4294967295; 4294967295; 4294967295; 4294967295; 4294967295; 4294967295; 4294967295; 4294967295; 4294967295; 4294967295; 4294967295; 4294967295; 4294967295; 4294967295; 4294967295; 4294967295; 4294967295; 4294967295; 4294967295; 4294967295; 4294967295; 4294967295; 4294967295; 4294967295; 4294967295; 4294967295; 4294967295; 4294967295; 4294967295; 4294967295; 4294967295; 4294967295; 4294967295; 4294967295; 4294967295; 4294967295; 4294967295; 4294967295; 4294967295];
  [4294967295; 4294967295; 4294967295; 4294967295; 4294967295; 4294967295; 4294967295; 4294967295; 4294967295; 4294967295; 4294967295; 4294967295; 4294967295; 4294967295; 4294967295; 4294967295; 4294967295; 4294967295; 4294967295; 4294967295; 4294967295; 4294967295; 4294967295; 4294967295; 4294967295; 4294967295; 4294967295; 4294967295; 4294967295; 4294967295; 4294967295; 4294967295; 4294967295; 4294967295; 4294967295; 4294967295; 4294967295; 4294967295; 4294967295; 4294967295; 4294967295; 4294967295; 4294967295; 4294967295; 4294967295; 4294967295; 4294967295; 4294967295; 4294967295; 4294967295; 4294967295; 4294967295; 4294967295; 4294967295; 4294967295; 4294967295; 4294967295; 4294967295; 4294967295; 4294967295; 4294967295; 4294967295; 4294967295; 4294967295; 4294967295; 4294967295; 4294967295; 4294967295; 4294967295; 4294967295; 4294967295; 4294967295; 4294967295; 4294967295; 4294967295; 4294967295; 4294967295; 4294967295; 4294967295; 4294967295; 4294967295; 4294967295; 4294967295; 4294967295; 4294967295; 4294967295; 4294967295; 4294967295; 4294967295; 4294967295; 4294967295; 4294967295; 4294967295; 4294967295; 4294967295; 4294967295; 4294967295; 4294967295; 4294967295; 4294967295; 4294967295; 4294967295; 4294967295; 4294967295; 4294967295; 4294967295; 4294967295; 4294967295; 4294967295; 4294967295; 4294967295; 4294967295; 4294967295; 4294967295; 4294967295; 4294967295; 4294967295; 4294967295; 4294967295; 4294967295; 4294967295; 4294967295; 4294967295; 4294967295; 4294967295; 4294967295; 4294967295; 4294967295; 4294967295; 4294967295; 4294967295; 4294967295; 4294967295; 4294967295; 4294967295; 4294967295; 4294967295; 4294967295; 4294967295; 4294967295; 4294967295; 4294967295; 4294967295; 4294967295; 4294967295; 4294967295; 4294967295; 4294967295; 4294967295; 4294967295; 4294967295; 4294967295; 4294967295; 4294967295; 4294967295; 4294967295; 4294967295];
  [4294967295; 4294967295; 4294967295; 4294967295; 4294967295; 4294967295; 4294967295; 4294967295; 4294967295; 4294967295; 4294967295; 4294967295; 4294967295; 4294967295; 4294967295; 4294967295; 4294967295; 4294967295; 4294967295; 4294967295; 4294967295; 4294967295; 4294967295; 4294967295; 4294967295; 4294967295; 4294967295; 4294967295; 4294967295; 4294967295; 4294967295; 4294967295; 4294967295; 4294967295; 4294967295; 4294967295; 4294967295; 4294967295; 4294967295; 4294967295; 4294967295; 4294967295; 4294967295; 4294967295; 4294967295; 4294967295; 4294967295; 4294967295; 4294967295; 4294967295; 4294967295; 4294967295; 4294967295; 4294967295; 4294967295; 4294967295; 4294967295; 4294967295; 4294967295; 4294967295; 4294967295; 4294967295; 4294967295; 4294967295; 4294967295; 4294967295; 4294967295; 4294967295; 4294967295; 4294967295; 4294967295; 4294967295; 4294967295; 4294967295; 4294967295; 4294967295; 4294967295; 4294967295; 4294967295; 4294967295; 4294967295; 4294967295; 4294967295; 4294967295; 4294967295; 4294967295; 4294967295; 4294967295; 4294967295; 4294967295; 4294967295; 4294967295; 4294967295; 4294967295; 4294967295; 4294967295; 4294967295; 4294967295; 4294967295; 4294967295; 4294967295; 4294967295; 4294967295; 4294967295; 4294967295; 4294967295; 4294967295; 4294967295; 4294967295; 4294967295; 4294967295; 4294967295; 4294967295; 4294967295; 4294967295; 4294967295; 4294967295; 4294967295; 4294967295; 4294967295; 4294967295; 4294967295; 4294967295; 4294967295; 4294967295; 4294967295; 4294967295; 4294967295; 4294967295; 4294967295; 4294967295; 4294967295; 4294967295; 4294967295; 4294967295; 4294967295; 4294967295; 4294967295; 4294967295; 4294967295; 4294967295; 4294967295; 4294967295; 4294967295; 4294967295; 4294967295; 4294967295; 4294967295; 4294967295; 4294967295; 4294967295; 4294967295; 4294967295; 4294967295; 4294967295; 4294967295; 4294967295];
  [17392; 19506; 17923; 17830; 17784; 160359; 19831; 17843; 162993; 19682; 163013; 15253; 18230; 18244; 19527; 19520; 148159; 144919; 160594; 159371; 159954; 19543; 172881; 18255; 17882; 19589; 162924; 19719; 19108; 18081; 158499; 29221; 154196; 137827; 146950; 147297; 26189; 22267; 4294967295; 32149; 22813; 166841; 15860; 38708; 162799; 23515; 138590; 23204; 13861; 171696; 23249; 23479; 23804; 26478; 34195; 170309; 29793; 29853; 14453; 138579; 145054; 155681; 16108; 153822; 15093; 31484; 40855; 147809; 166157; 143850; 133770; 143966; 17162; 33924; 40854; 37935; 18736; 34323; 22678; 38730; 37400; 31184; 31282; 26208; 27177; 34973; 29772; 31685; 26498; 31276; 21071; 36934; 13542; 29636; 155065; 29894; 40903; 22451; 18735; 21580; 16689; 145038; 22552; 31346; 162661; 35727; 18094; 159368; 16769; 155033; 31662; 140476; 40904; 140481; 140489; 140492; 40905; 34052; 144827; 16564; 40906; 17633; 175615; 25281; 28782; 40907; 4294967295; 4294967295; 4294967295; 4294967295; 4294967295; 4294967295; 4294967295; 4294967295; 4294967295; 4294967295; 4294967295; 4294967295; 4294967295; 4294967295; 4294967295; 4294967295; 4294967295; 4294967295; 4294967295; 4294967295; 4294967295; 4294967295; 4294967295; 4294967295; 4294967295; 4294967295; 4294967295; 4294967295; 4294967295; 4294967295; 4294967295];
  [12736; 12737; 12738; 12739; 12740; 131340; 12741; 131281; 131277; 12742; 12743; 131275; 139240; 12744; 131274; 12745; 12746; 12747; 12748; 131342; 12749; 12750; 256; 193; 461; 192; 274; 201; 282; 200; 332; 211; 465; 210; 4294967295; 7870; 4294967295; 7872; 202; 257; 225; 462; 224; 593; 275; 233; 283; 232; 299; 237; 464; 236; 333; 243; 466; 242; 363; 250; 468; 249; 470; 472; 474; 476; 252; 4294967295; 7871; 4294967295; 7873; 234; 609; 9178; 9179; 4294967295; 4294967295; 4294967295; 4294967295; 4294967295; 4294967295; 4294967295; 4294967295; 4294967295; 4294967295; 4294967295; 4294967295; 4294967295; 4294967295; 4294967295; 4294967295; 4294967295; 4294967295; 4294967295; 4294967295; 4294967295; 4294967295; 4294967295; 4294967295; 4294967295; 4294967295; 4294967295; 4294967295; 4294967295; 4294967295; 4294967295; 4294967295; 4294967295; 4294967295; 4294967295; 4294967295; 4294967295; 4294967295; 4294967295; 4294967295; 4294967295; 4294967295; 4294967295; 4294967295; 4294967295; 4294967295; 4294967295; 4294967295; 4294967295; 4294967295; 4294967295; 4294967295; 4294967295; 4294967295; 4294967295; 4294967295; 4294967295; 4294967295; 4294967295; 4294967295; 4294967295; 4294967295; 4294967295; 4294967295; 4294967295; 4294967295; 4294967295; 4294967295; 4294967295; 4294967295; 4294967295; 4294967295; 4294967295; 4294967295; 4294967295; 4294967295; 4294967295; 4294967295; 4294967295; 4294967295; 4294967295; 4294967295; 4294967295; 4294967295];
  [172969; 135493; 4294967295; 25866; 4294967295; 4294967295; 20029; 28381; 40270; 37343; 4294967295; 4294967295; 161589; 25745; 20250; 20264; 20392; 20822; 20852; 20892; 20964; 21153; 21160; 21307; 21326; 21457; 21464; 22242; 22768; 22788; 22791; 22834; 22836; 23398; 23454; 23455; 23706; 24198; 24635; 25993; 26622; 26628; 26725; 27982; 28860; 30005; 32420; 32428; 32442; 32455; 32463; 32479; 32518; 32567; 33402; 33487; 33647; 35270; 35774; 35810; 36710; 36711; 36718; 29713; 31996; 32205; 26950; 31433; 21031; 4294967295; 4294967295; 4294967295; 4294967295; 37260; 30904; 37214; 32956; 4294967295; 36107; 33014; 133607; 4294967295; 4294967295; 32927; 40647; 19661; 40393; 40460; 19518; 171510; 159758; 40458; 172339; 13761; 4294967295; 28314; 33342; 29977; 4294967295; 18705; 39532; 39567; 40857; 31111; 164972; 138698; 132560; 142054; 20004; 20097; 20096; 20103; 20159; 20203; 20279; 13388; 20413; 15944; 20483; 20616; 13437; 13459; 13477; 20870; 22789; 20955; 20988; 20997; 20105; 21113; 21136; 21287; 13767; 21417; 13649; 21424; 13651; 21442; 21539; 13677; 13682; 13953; 21651; 21667; 21684; 21689; 21712; 21743; 21784; 21795; 21800; 13720; 21823; 13733; 13759; 21975; 13765];
  [163204; 21797; 4294967295; 134210; 134421; 151851; 21904; 142534; 14828; 131905; 36422; 150968; 169189; 16467; 164030; 30586; 142392; 14900; 18389; 164189; 158194; 151018; 25821; 134524; 135092; 134357; 135412; 25741; 36478; 134806; 134155; 135012; 142505; 164438; 148691; 4294967295; 134470; 170573; 164073; 18420; 151207; 142530; 39602; 14951; 169460; 16365; 13574; 152263; 169940; 161992; 142660; 40302; 38933; 4294967295; 17369; 155813; 25780; 21731; 142668; 142282; 135287; 14843; 135279; 157402; 157462; 162208; 25834; 151634; 134211; 36456; 139681; 166732; 132913; 4294967295; 18443; 131497; 16378; 22643; 142733; 4294967295; 148936; 132348; 155799; 134988; 134550; 21881; 16571; 17338; 4294967295; 19124; 141926; 135325; 33194; 39157; 134556; 25465; 14846; 141173; 36288; 22177; 25724; 15939; 4294967295; 173569; 134665; 142031; 142537; 4294967295; 135368; 145858; 14738; 14854; 164507; 13688; 155209; 139463; 22098; 134961; 142514; 169760; 13500; 27709; 151099; 4294967295; 4294967295; 161140; 142987; 139784; 173659; 167117; 134778; 134196; 157724; 32659; 135375; 141315; 141625; 13819; 152035; 134796; 135053; 134826; 16275; 134960; 134471; 135503; 134732; 4294967295; 134827; 134057; 134472; 135360; 135485; 16377; 140950; 25650; 135085];
  [144372; 161337; 142286; 134526; 134527; 142417; 142421; 14872; 134808; 135367; 134958; 173618; 158544; 167122; 167321; 167114; 38314; 21708; 33476; 21945; 4294967295; 171715; 39974; 39606; 161630; 142830; 28992; 33133; 33004; 23580; 157042; 33076; 14231; 21343; 164029; 37302; 134906; 134671; 134775; 134907; 13789; 151019; 13833; 134358; 22191; 141237; 135369; 134672; 134776; 135288; 135496; 164359; 136277; 134777; 151120; 142756; 23124; 135197; 135198; 135413; 135414; 22428; 134673; 161428; 164557; 135093; 134779; 151934; 14083; 135094; 135552; 152280; 172733; 149978; 137274; 147831; 164476; 22681; 21096; 13850; 153405; 31666; 23400; 18432; 19244; 40743; 18919; 39967; 39821; 154484; 143677; 22011; 13810; 22153; 20008; 22786; 138177; 194680; 38737; 131206; 20059; 20155; 13630; 23587; 24401; 24516; 14586; 25164; 25909; 27514; 27701; 27706; 28780; 29227; 20012; 29357; 149737; 32594; 31035; 31993; 32595; 156266; 13505; 4294967295; 156491; 32770; 32896; 157202; 158033; 21341; 34916; 35265; 161970; 35744; 36125; 38021; 38264; 38271; 38376; 167439; 38886; 39029; 39118; 39134; 39267; 170000; 40060; 40479; 40644; 27503; 63751; 20023; 131207; 38429; 25143; 38050; 4294967295];
  [20539; 28158; 171123; 40870; 15817; 34959; 147790; 28791; 23797; 19232; 152013; 13657; 154928; 24866; 166450; 36775; 37366; 29073; 26393; 29626; 144001; 172295; 15499; 137600; 19216; 30948; 29698; 20910; 165647; 16393; 27235; 172730; 16931; 34319; 133743; 31274; 170311; 166634; 38741; 28749; 21284; 139390; 37876; 30425; 166371; 40871; 30685; 20131; 20464; 20668; 20015; 20247; 40872; 21556; 32139; 22674; 22736; 138678; 24210; 24217; 24514; 141074; 25995; 144377; 26905; 27203; 146531; 27903; 4294967295; 29184; 148741; 29580; 16091; 150035; 23317; 29881; 35715; 154788; 153237; 31379; 31724; 31939; 32364; 33528; 34199; 40873; 34960; 40874; 36537; 40875; 36815; 34143; 39392; 37409; 40876; 167353; 136255; 16497; 17058; 23066; 4294967295; 4294967295; 4294967295; 39016; 26475; 17014; 22333; 4294967295; 34262; 149883; 33471; 160013; 19585; 159092; 23931; 158485; 159678; 40877; 40878; 23446; 40879; 26343; 32347; 28247; 31178; 15752; 17603; 143958; 141206; 17306; 17718; 4294967295; 23765; 146202; 35577; 23672; 15634; 144721; 23928; 40882; 29015; 17752; 147692; 138787; 19575; 14712; 13386; 131492; 158785; 35532; 20404; 131641; 22975; 33132; 38998; 170234; 24379];
  [134047; 4294967295; 139713; 166253; 16642; 18107; 168057; 16135; 40883; 172469; 16632; 14294; 18167; 158790; 16764; 165554; 160767; 17773; 14548; 152730; 17761; 17691; 19849; 19579; 19830; 17898; 16328; 150287; 13921; 17630; 17597; 16877; 23870; 23880; 23894; 15868; 14351; 23972; 23993; 14368; 14392; 24130; 24253; 24357; 24451; 14600; 14612; 14655; 14669; 24791; 24893; 23781; 14729; 25015; 25017; 25039; 14776; 25132; 25232; 25317; 25368; 14840; 22193; 14851; 25570; 25595; 25607; 25690; 14923; 25792; 23829; 22049; 40863; 14999; 25990; 15037; 26111; 26195; 15090; 26258; 15138; 26390; 15170; 26532; 26624; 15192; 26698; 26756; 15218; 15217; 15227; 26889; 26947; 29276; 26980; 27039; 27013; 15292; 27094; 15325; 27237; 27252; 27249; 27266; 15340; 27289; 15346; 27307; 27317; 27348; 27382; 27521; 27585; 27626; 27765; 27818; 15563; 27906; 27910; 27942; 28033; 15599; 28068; 28081; 28181; 28184; 28201; 28294; 166336; 28347; 28386; 28378; 40831; 28392; 28393; 28452; 28468; 15686; 147265; 28545; 28606; 15722; 15733; 29111; 23705; 15754; 28716; 15761; 28752; 28756; 28783; 28799; 28809; 131877; 17345; 13809; 134872];
  [147159; 22462; 159443; 28990; 153568; 13902; 27042; 166889; 23412; 31305; 153825; 169177; 31333; 31357; 154028; 31419; 31408; 31426; 31427; 29137; 156813; 16842; 31450; 31453; 31466; 16879; 21682; 154625; 31499; 31573; 31529; 152334; 154878; 31650; 31599; 33692; 154548; 158847; 31696; 33825; 31634; 31672; 154912; 15789; 154725; 33938; 31738; 31750; 31797; 154817; 31812; 31875; 149634; 31910; 26237; 148856; 31945; 31943; 31974; 31860; 31987; 31989; 31950; 32359; 17693; 159300; 32093; 159446; 29837; 32137; 32171; 28981; 32179; 32210; 147543; 155689; 32228; 15635; 32245; 137209; 32229; 164717; 32285; 155937; 155994; 32366; 32402; 17195; 37996; 32295; 32576; 32577; 32583; 31030; 156368; 39393; 32663; 156497; 32675; 136801; 131176; 17756; 145254; 17667; 164666; 32762; 156809; 32773; 32776; 32797; 32808; 32815; 172167; 158915; 32827; 32828; 32865; 141076; 18825; 157222; 146915; 157416; 26405; 32935; 166472; 33031; 33050; 22704; 141046; 27775; 156824; 151480; 25831; 136330; 33304; 137310; 27219; 150117; 150165; 17530; 33321; 133901; 158290; 146814; 20473; 136445; 34018; 33634; 158474; 149927; 144688; 137075; 146936; 33450; 26907; 194964; 16859];
  [34123; 33488; 33562; 134678; 137140; 14017; 143741; 144730; 33403; 33506; 33560; 147083; 159139; 158469; 158615; 144846; 15807; 33565; 21996; 33669; 17675; 159141; 33708; 33729; 33747; 13438; 159444; 27223; 34138; 13462; 159298; 143087; 33880; 154596; 33905; 15827; 17636; 27303; 33866; 146613; 31064; 33960; 158614; 159351; 159299; 34014; 33807; 33681; 17568; 33939; 34020; 154769; 16960; 154816; 17731; 34100; 23282; 159385; 17703; 34163; 17686; 26559; 34326; 165413; 165435; 34241; 159880; 34306; 136578; 159949; 194994; 17770; 34344; 13896; 137378; 21495; 160666; 34430; 34673; 172280; 34798; 142375; 34737; 34778; 34831; 22113; 34412; 26710; 17935; 34885; 34886; 161248; 146873; 161252; 34910; 34972; 18011; 34996; 34997; 25537; 35013; 30583; 161551; 35207; 35210; 35238; 35241; 35239; 35260; 166437; 35303; 162084; 162493; 35484; 30611; 37374; 35472; 162393; 31465; 162618; 147343; 18195; 162616; 29052; 35596; 35615; 152624; 152933; 35647; 35660; 35661; 35497; 150138; 35728; 35739; 35503; 136927; 17941; 34895; 35995; 163156; 163215; 195028; 14117; 163155; 36054; 163224; 163261; 36114; 36099; 137488; 36059; 28764; 36113; 150729; 16080; 36215];
  [36265; 163842; 135188; 149898; 15228; 164284; 160012; 31463; 36525; 36534; 36547; 37588; 36633; 36653; 164709; 164882; 36773; 37635; 172703; 133712; 36787; 18730; 166366; 165181; 146875; 24312; 143970; 36857; 172052; 165564; 165121; 140069; 14720; 159447; 36919; 165180; 162494; 36961; 165228; 165387; 37032; 165651; 37060; 165606; 37038; 37117; 37223; 15088; 37289; 37316; 31916; 166195; 138889; 37390; 27807; 37441; 37474; 153017; 37561; 166598; 146587; 166668; 153051; 134449; 37676; 37739; 166625; 166891; 28815; 23235; 166626; 166629; 18789; 37444; 166892; 166969; 166911; 37747; 37979; 36540; 38277; 38310; 37926; 38304; 28662; 17081; 140922; 165592; 135804; 146990; 18911; 27676; 38523; 38550; 16748; 38563; 159445; 25050; 38582; 30965; 166624; 38589; 21452; 18849; 158904; 131700; 156688; 168111; 168165; 150225; 137493; 144138; 38705; 34370; 38710; 18959; 17725; 17797; 150249; 28789; 23361; 38683; 38748; 168405; 38743; 23370; 168427; 38751; 37925; 20688; 143543; 143548; 38793; 38815; 38833; 38846; 38848; 38866; 38880; 152684; 38894; 29724; 169011; 38911; 38901; 168989; 162170; 19153; 38964; 38963; 38987; 39014; 15118; 160117; 15697; 132656; 147804];
  [153350; 39114; 39095; 39112; 39111; 19199; 159015; 136915; 21936; 39137; 39142; 39148; 37752; 39225; 150057; 19314; 170071; 170245; 39413; 39436; 39483; 39440; 39512; 153381; 14020; 168113; 170965; 39648; 39650; 170757; 39668; 19470; 39700; 39725; 165376; 20532; 39732; 158120; 14531; 143485; 39760; 39744; 171326; 23109; 137315; 39822; 148043; 39938; 39935; 39948; 171624; 40404; 171959; 172434; 172459; 172257; 172323; 172511; 40318; 40323; 172340; 40462; 26760; 40388; 139611; 172435; 172576; 137531; 172595; 40249; 172217; 172724; 40592; 40597; 40606; 40610; 19764; 40618; 40623; 148324; 40641; 15200; 14821; 15645; 20274; 14270; 166955; 40706; 40712; 19350; 37924; 159138; 40727; 40726; 40761; 22175; 22154; 40773; 39352; 168075; 38898; 33919; 40802; 40809; 31452; 40846; 29206; 19390; 149877; 149947; 29047; 150008; 148296; 150097; 29598; 166874; 137466; 31135; 166270; 167478; 37737; 37875; 166468; 37612; 37761; 37835; 166252; 148665; 29207; 16107; 30578; 31299; 28880; 148595; 148472; 29054; 137199; 28835; 137406; 144793; 16071; 137349; 152623; 137208; 14114; 136955; 137273; 14049; 137076; 137425; 155467; 14115; 136896; 22363; 150053; 136190; 135848];
  [136134; 136374; 34051; 145062; 34051; 33877; 149908; 160101; 146993; 152924; 147195; 159826; 17652; 145134; 170397; 159526; 26617; 14131; 15381; 15847; 22636; 137506; 26640; 16471; 145215; 147681; 147595; 147727; 158753; 21707; 22174; 157361; 22162; 135135; 134056; 134669; 37830; 166675; 37788; 20216; 20779; 14361; 148534; 20156; 132197; 131967; 20299; 20362; 153169; 23144; 131499; 132043; 14745; 131850; 132116; 13365; 20265; 131776; 167603; 131701; 35546; 131596; 20120; 20685; 20749; 20386; 20227; 150030; 147082; 20290; 20526; 20588; 20609; 20428; 20453; 20568; 20732; 20825; 20827; 20829; 20830; 28278; 144789; 147001; 147135; 28018; 137348; 147081; 20904; 20931; 132576; 17629; 132259; 132242; 132241; 36218; 166556; 132878; 21081; 21156; 133235; 21217; 37742; 18042; 29068; 148364; 134176; 149932; 135396; 27089; 134685; 29817; 16094; 29849; 29716; 29782; 29592; 19342; 150204; 147597; 21456; 13700; 29199; 147657; 21940; 131909; 21709; 134086; 22301; 37469; 38644; 37734; 22493; 22413; 22399; 13886; 22731; 23193; 166470; 136954; 137071; 136976; 23084; 22968; 37519; 23166; 23247; 23058; 153926; 137715; 137313; 148117; 14069; 27909; 29763; 23073; 155267];
  [23169; 166871; 132115; 37856; 29836; 135939; 28933; 18802; 37896; 166395; 37821; 14240; 23582; 23710; 24158; 24136; 137622; 137596; 146158; 24269; 23375; 137475; 137476; 14081; 137376; 14045; 136958; 14035; 33066; 166471; 138682; 144498; 166312; 24332; 24334; 137511; 137131; 23147; 137019; 23364; 34324; 161277; 34912; 24702; 141408; 140843; 24539; 16056; 140719; 140734; 168072; 159603; 25024; 131134; 131142; 140827; 24985; 24984; 24693; 142491; 142599; 149204; 168269; 25713; 149093; 142186; 14889; 142114; 144464; 170218; 142968; 25399; 173147; 25782; 25393; 25553; 149987; 142695; 25252; 142497; 25659; 25963; 26994; 15348; 143502; 144045; 149897; 144043; 21773; 144096; 137433; 169023; 26318; 144009; 143795; 15072; 16784; 152964; 166690; 152975; 136956; 152923; 152613; 30958; 143619; 137258; 143924; 13412; 143887; 143746; 148169; 26254; 159012; 26219; 19347; 26160; 161904; 138731; 26211; 144082; 144097; 26142; 153714; 14545; 145466; 145340; 15257; 145314; 144382; 29904; 15254; 26511; 149034; 26806; 26654; 15300; 27326; 14435; 145365; 148615; 27187; 27218; 27337; 27397; 137490; 25873; 26776; 27212; 15319; 27258; 27479; 147392; 146586; 37792; 37618; 166890; 166603];
  [37513; 163870; 166364; 37991; 28069; 28427; 149996; 28007; 147327; 15759; 28164; 147516; 23101; 28170; 22599; 27940; 30786; 28987; 148250; 148086; 28913; 29264; 29319; 29332; 149391; 149285; 20857; 150180; 132587; 29818; 147192; 144991; 150090; 149783; 155617; 16134; 16049; 150239; 166947; 147253; 24743; 16115; 29900; 29756; 37767; 29751; 17567; 159210; 17745; 30083; 16227; 150745; 150790; 16216; 30037; 30323; 173510; 15129; 29800; 166604; 149931; 149902; 15099; 15821; 150094; 16127; 149957; 149747; 37370; 22322; 37698; 166627; 137316; 20703; 152097; 152039; 30584; 143922; 30478; 30479; 30587; 149143; 145281; 14942; 149744; 29752; 29851; 16063; 150202; 150215; 16584; 150166; 156078; 37639; 152961; 30750; 30861; 30856; 30930; 29648; 31065; 161601; 153315; 16654; 31131; 33942; 31141; 27181; 147194; 31290; 31220; 16750; 136934; 16690; 37429; 31217; 134476; 149900; 131737; 146874; 137070; 13719; 21867; 13680; 13994; 131540; 134157; 31458; 23129; 141045; 154287; 154268; 23053; 131675; 30960; 23082; 154566; 31486; 16889; 31837; 31853; 16913; 154547; 155324; 155302; 31949; 150009; 137136; 31886; 31868; 31918; 27314; 32220; 32263; 32211; 32590; 156257];
  [155996; 162632; 32151; 155266; 17002; 158581; 133398; 26582; 131150; 144847; 22468; 156690; 156664; 149858; 32733; 31527; 133164; 154345; 154947; 31500; 155150; 39398; 34373; 39523; 27164; 144447; 14818; 150007; 157101; 39455; 157088; 33920; 160039; 158929; 17642; 33079; 17410; 32966; 33033; 33090; 157620; 39107; 158274; 33378; 33381; 158289; 33875; 159143; 34320; 160283; 23174; 16767; 137280; 23339; 137377; 23268; 137432; 34464; 195004; 146831; 34861; 160802; 23042; 34926; 20293; 34951; 35007; 35046; 35173; 35149; 153219; 35156; 161669; 161668; 166901; 166873; 166812; 166393; 16045; 33955; 18165; 18127; 14322; 35389; 35356; 169032; 24397; 37419; 148100; 26068; 28969; 28868; 137285; 40301; 35999; 36073; 163292; 22938; 30659; 23024; 17262; 14036; 36394; 36519; 150537; 36656; 36682; 17140; 27736; 28603; 140065; 18587; 28537; 28299; 137178; 39913; 14005; 149807; 37051; 37015; 21873; 18694; 37307; 37892; 166475; 16482; 166652; 37927; 166941; 166971; 34021; 35371; 38297; 38311; 38295; 38294; 167220; 29765; 16066; 149759; 150082; 148458; 16103; 143909; 38543; 167655; 167526; 167525; 16076; 149997; 150136; 147438; 29714; 29803; 16124; 38721; 168112];
  [26695; 18973; 168083; 153567; 38749; 37736; 166281; 166950; 166703; 156606; 37562; 23313; 35689; 18748; 29689; 147995; 38811; 38769; 39224; 134950; 24001; 166853; 150194; 38943; 169178; 37622; 169431; 37349; 17600; 166736; 150119; 166756; 39132; 166469; 16128; 37418; 18725; 33812; 39227; 39245; 162566; 15869; 39323; 19311; 39338; 39516; 166757; 153800; 27279; 39457; 23294; 39471; 170225; 19344; 170312; 39356; 19389; 19351; 37757; 22642; 135938; 22562; 149944; 136424; 30788; 141087; 146872; 26821; 15741; 37976; 14631; 24912; 141185; 141675; 24839; 40015; 40019; 40059; 39989; 39952; 39807; 39887; 171565; 39839; 172533; 172286; 40225; 19630; 147716; 40472; 19632; 40204; 172468; 172269; 172275; 170287; 40357; 33981; 159250; 159711; 158594; 34300; 17715; 159140; 159364; 159216; 33824; 34286; 159232; 145367; 155748; 31202; 144796; 144960; 18733; 149982; 15714; 37851; 37566; 37704; 131775; 30905; 37495; 37965; 20452; 13376; 36964; 152925; 30781; 30804; 30902; 30795; 137047; 143817; 149825; 13978; 20338; 28634; 28633; 28702; 28702; 21524; 147893; 22459; 22771; 22410; 40214; 22487; 28980; 13487; 147884; 29163; 158784; 151447; 23336; 137141; 166473];
  [24844; 23246; 23051; 17084; 148616; 14124; 19323; 166396; 37819; 37816; 137430; 134941; 33906; 158912; 136211; 148218; 142374; 148417; 22932; 146871; 157505; 32168; 155995; 155812; 149945; 149899; 166394; 37605; 29666; 16105; 29876; 166755; 137375; 16097; 150195; 27352; 29683; 29691; 16086; 150078; 150164; 137177; 150118; 132007; 136228; 149989; 29768; 149782; 28837; 149878; 37508; 29670; 37727; 132350; 37681; 166606; 166422; 37766; 166887; 153045; 18741; 166530; 29035; 149827; 134399; 22180; 132634; 134123; 134328; 21762; 31172; 137210; 32254; 136898; 150096; 137298; 17710; 37889; 14090; 166592; 149933; 22960; 137407; 137347; 160900; 23201; 14050; 146779; 14000; 37471; 23161; 166529; 137314; 37748; 15565; 133812; 19094; 14730; 20724; 15721; 15692; 136092; 29045; 17147; 164376; 28175; 168164; 17643; 27991; 163407; 28775; 27823; 15574; 147437; 146989; 28162; 28428; 15727; 132085; 30033; 14012; 13512; 18048; 16090; 18545; 22980; 37486; 18750; 36673; 166940; 158656; 22546; 22472; 14038; 136274; 28926; 148322; 150129; 143331; 135856; 140221; 26809; 26983; 136088; 144613; 162804; 145119; 166531; 145366; 144378; 150687; 27162; 145069; 158903; 33854; 17631; 17614];
  [159014; 159057; 158850; 159710; 28439; 160009; 33597; 137018; 33773; 158848; 159827; 137179; 22921; 23170; 137139; 23137; 23153; 137477; 147964; 14125; 23023; 137020; 14023; 29070; 37776; 26266; 148133; 23150; 23083; 148115; 27179; 147193; 161590; 148571; 148170; 28957; 148057; 166369; 20400; 159016; 23746; 148686; 163405; 148413; 27148; 148054; 135940; 28838; 28979; 148457; 15781; 27871; 194597; 150095; 32357; 23019; 23855; 15859; 24412; 150109; 137183; 32164; 33830; 21637; 146170; 144128; 131604; 22398; 133333; 132633; 16357; 139166; 172726; 28675; 168283; 23920; 29583; 31955; 166489; 168992; 20424; 32743; 29389; 29456; 162548; 29496; 29497; 153334; 29505; 29512; 16041; 162584; 36972; 29173; 149746; 29665; 33270; 16074; 30476; 16081; 27810; 22269; 29721; 29726; 29727; 16098; 16112; 16116; 16122; 29907; 16142; 16211; 30018; 30061; 30066; 30093; 16252; 30152; 30172; 16320; 30285; 16343; 30324; 16348; 30330; 151388; 29064; 22051; 35200; 22633; 16413; 30531; 16441; 26465; 16453; 13787; 30616; 16490; 16495; 23646; 30654; 30667; 22770; 30744; 28857; 30748; 16552; 30777; 30791; 30801; 30822; 33864; 152885; 31027; 26627; 31026; 16643];
  [16649; 31121; 31129; 36795; 31238; 36796; 16743; 31377; 16818; 31420; 33401; 16836; 31439; 31451; 16847; 20001; 31586; 31596; 31611; 31762; 31771; 16992; 17018; 31867; 31900; 17036; 31928; 17044; 31981; 36755; 28864; 134351; 32207; 32212; 32208; 32253; 32686; 32692; 29343; 17303; 32800; 32805; 31545; 32814; 32817; 32852; 15820; 22452; 28832; 32951; 33001; 17389; 33036; 29482; 33038; 33042; 30048; 33044; 17409; 15161; 33110; 33113; 33114; 17427; 22586; 33148; 33156; 17445; 33171; 17453; 33189; 22511; 33217; 33252; 33364; 17551; 33446; 33398; 33482; 33496; 33535; 17584; 33623; 38505; 27018; 33797; 28917; 33892; 24803; 33928; 17668; 33982; 34017; 34040; 34064; 34104; 34130; 17723; 34159; 34160; 34272; 17783; 34418; 34450; 34482; 34543; 38469; 34699; 17926; 17943; 34990; 35071; 35108; 35143; 35217; 162151; 35369; 35384; 35476; 35508; 35921; 36052; 36082; 36124; 18328; 22623; 36291; 18413; 20206; 36410; 21976; 22356; 36465; 22005; 36528; 18487; 36558; 36578; 36580; 36589; 36594; 36791; 36801; 36810; 36812; 36915; 39364; 18605; 39136; 37395; 18718; 37416; 37464; 37483; 37553; 37550; 37567];
  [37603; 37611; 37619; 37620; 37629; 37699; 37764; 37805; 18757; 18769; 40639; 37911; 21249; 37917; 37933; 37950; 18794; 37972; 38009; 38189; 38306; 18855; 38388; 38451; 18917; 26528; 18980; 38720; 18997; 38834; 38850; 22100; 19172; 24808; 39097; 19225; 39153; 22596; 39182; 39193; 20916; 39196; 39223; 39234; 39261; 39266; 19312; 39365; 19357; 39484; 39695; 31363; 39785; 39809; 39901; 39921; 39924; 19565; 39968; 14191; 138178; 40265; 39994; 40702; 22096; 40339; 40381; 40384; 40444; 38134; 36790; 40571; 40620; 40625; 40637; 40646; 38108; 40674; 40689; 40696; 31432; 40772; 131220; 131767; 132000; 26906; 38083; 22956; 132311; 22592; 38081; 14265; 132565; 132629; 132726; 136890; 22359; 29043; 133826; 133837; 134079; 21610; 194619; 134091; 21662; 134139; 134203; 134227; 134245; 134268; 24807; 134285; 22138; 134325; 134365; 134381; 134511; 134578; 134600; 26965; 39983; 34725; 134660; 134670; 134871; 135056; 134957; 134771; 23584; 135100; 24075; 135260; 135247; 135286; 26398; 135291; 135304; 135318; 13895; 135359; 135379; 135471; 135483; 21348; 33965; 135907; 136053; 135990; 35713; 136567; 136729; 137155; 137159; 20088; 28859; 137261; 137578];
  [137773; 137797; 138282; 138352; 138412; 138952; 25283; 138965; 139029; 29080; 26709; 139333; 27113; 14024; 139900; 140247; 140282; 141098; 141425; 141647; 33533; 141671; 141715; 142037; 35237; 142056; 36768; 142094; 38840; 142143; 38983; 39613; 142412; 4294967295; 142472; 142519; 154600; 142600; 142610; 142775; 142741; 142914; 143220; 143308; 143411; 143462; 144159; 144350; 24497; 26184; 26303; 162425; 144743; 144883; 29185; 149946; 30679; 144922; 145174; 32391; 131910; 22709; 26382; 26904; 146087; 161367; 155618; 146961; 147129; 161278; 139418; 18640; 19128; 147737; 166554; 148206; 148237; 147515; 148276; 148374; 150085; 132554; 20946; 132625; 22943; 138920; 15294; 146687; 148484; 148694; 22408; 149108; 14747; 149295; 165352; 170441; 14178; 139715; 35678; 166734; 39382; 149522; 149755; 150037; 29193; 150208; 134264; 22885; 151205; 151430; 132985; 36570; 151596; 21135; 22335; 29041; 152217; 152601; 147274; 150183; 21948; 152646; 152686; 158546; 37332; 13427; 152895; 161330; 152926; 18200; 152930; 152934; 153543; 149823; 153693; 20582; 13563; 144332; 24798; 153859; 18300; 166216; 154286; 154505; 154630; 138640; 22433; 29009; 28598; 155906; 162834; 36950; 156082; 151450; 35682; 156674; 156746];
  [23899; 158711; 36662; 156804; 137500; 35562; 150006; 156808; 147439; 156946; 19392; 157119; 157365; 141083; 37989; 153569; 24981; 23079; 194765; 20411; 22201; 148769; 157436; 20074; 149812; 38486; 28047; 158909; 13848; 35191; 157593; 157806; 156689; 157790; 29151; 157895; 31554; 168128; 133649; 157990; 37124; 158009; 31301; 40432; 158202; 39462; 158253; 13919; 156777; 131105; 31107; 158260; 158555; 23852; 144665; 33743; 158621; 18128; 158884; 30011; 34917; 159150; 22710; 14108; 140685; 159819; 160205; 15444; 160384; 160389; 37505; 139642; 160395; 37680; 160486; 149968; 27705; 38047; 160848; 134904; 34855; 35061; 141606; 164979; 137137; 28344; 150058; 137248; 14756; 14009; 23568; 31203; 17727; 26294; 171181; 170148; 35139; 161740; 161880; 22230; 16607; 136714; 14753; 145199; 164072; 136133; 29101; 33638; 162269; 168360; 23143; 19639; 159919; 166315; 162301; 162314; 162571; 163174; 147834; 31555; 31102; 163849; 28597; 172767; 27139; 164632; 21410; 159239; 37823; 26678; 38749; 164207; 163875; 158133; 136173; 143919; 163912; 23941; 166960; 163971; 22293; 38947; 166217; 23979; 149896; 26046; 27093; 21458; 150181; 147329; 15377; 26422; 163984; 164084; 164142; 139169; 164175];
  [164233; 164271; 164378; 164614; 164655; 164746; 13770; 164968; 165546; 18682; 25574; 166230; 30728; 37461; 166328; 17394; 166375; 17375; 166376; 166726; 166868; 23032; 166921; 36619; 167877; 168172; 31569; 168208; 168252; 15863; 168286; 150218; 36816; 29327; 22155; 169191; 169449; 169392; 169400; 169778; 170193; 170313; 170346; 170435; 170536; 170766; 171354; 171419; 32415; 171768; 171811; 19620; 38215; 172691; 29090; 172799; 19857; 36882; 173515; 19868; 134300; 36798; 21953; 36794; 140464; 36793; 150163; 17673; 32383; 28502; 27313; 20202; 13540; 166700; 161949; 14138; 36480; 137205; 163876; 166764; 166809; 162366; 157359; 15851; 161365; 146615; 153141; 153942; 20122; 155265; 156248; 22207; 134765; 36366; 23405; 147080; 150686; 25566; 25296; 137206; 137339; 25904; 22061; 154698; 21530; 152337; 15814; 171416; 19581; 22050; 22046; 32585; 155352; 22901; 146752; 34672; 19996; 135146; 134473; 145082; 33047; 40286; 36120; 30267; 40005; 30286; 30649; 37701; 21554; 33096; 33527; 22053; 33074; 33816; 32957; 21994; 31074; 22083; 21526; 134813; 13774; 22021; 22001; 26353; 164578; 13869; 30004; 22000; 21946; 21655; 21874; 134209; 134294; 24272; 151880; 134774; 142434];
  [134818; 40619; 32090; 21982; 135285; 25245; 38765; 21652; 36045; 29174; 37238; 25596; 25529; 25598; 21865; 142147; 40050; 143027; 20890; 13535; 134567; 20903; 21581; 21790; 21779; 30310; 36397; 157834; 30129; 32950; 34820; 34694; 35015; 33206; 33820; 135361; 17644; 29444; 149254; 23440; 33547; 157843; 22139; 141044; 163119; 147875; 163187; 159440; 160438; 37232; 135641; 37384; 146684; 173737; 134828; 134905; 29286; 138402; 18254; 151490; 163833; 135147; 16634; 40029; 25887; 142752; 18675; 149472; 171388; 135148; 134666; 24674; 161187; 135149; 4294967295; 155720; 135559; 29091; 32398; 40272; 19994; 19972; 13687; 23309; 27826; 21351; 13996; 14812; 21373; 13989; 149016; 22682; 150382; 33325; 21579; 22442; 154261; 133497; 4294967295; 14930; 140389; 29556; 171692; 19721; 39917; 146686; 171824; 19547; 151465; 169374; 171998; 33884; 146870; 160434; 157619; 145184; 25390; 32037; 147191; 146988; 14890; 36872; 21196; 15988; 13946; 17897; 132238; 30272; 23280; 134838; 30842; 163630; 22695; 16575; 22140; 39819; 23924; 30292; 173108; 40581; 19681; 30201; 14331; 24857; 143578; 148466; 4294967295; 22109; 135849; 22439; 149859; 171526; 21044; 159918; 13741; 27722; 40316];
  [31830; 39737; 22494; 137068; 23635; 25811; 169168; 156469; 160100; 34477; 134440; 159010; 150242; 134513; 4294967295; 20990; 139023; 23950; 38659; 138705; 40577; 36940; 31519; 39682; 23761; 31651; 25192; 25397; 39679; 31695; 39722; 31870; 39726; 31810; 31878; 39957; 31740; 39689; 40727; 39963; 149822; 40794; 21875; 23491; 20477; 40600; 20466; 21088; 15878; 21201; 22375; 20566; 22967; 24082; 38856; 40363; 36700; 21609; 38836; 39232; 38842; 21292; 24880; 26924; 21466; 39946; 40194; 19515; 38465; 27008; 20646; 30022; 137069; 39386; 21107; 4294967295; 37209; 38529; 37212; 4294967295; 37201; 167575; 25471; 159011; 27338; 22033; 37262; 30074; 25221; 132092; 29519; 31856; 154657; 146685; 4294967295; 149785; 30422; 39837; 20010; 134356; 33726; 34882; 4294967295; 23626; 27072; 20717; 22394; 21023; 24053; 20174; 27697; 131570; 20281; 21660; 21722; 21146; 36226; 13822; 24332; 13811; 4294967295; 27474; 37244; 40869; 39831; 38958; 39092; 39610; 40616; 40580; 29050; 31508; 4294967295; 27642; 34840; 32632; 4294967295; 22048; 173642; 36471; 40787; 4294967295; 36308; 36431; 40476; 36353; 25218; 164733; 36392; 36469; 31443; 150135; 31294; 30936; 27882; 35431; 30215];
  [166490; 40742; 27854; 34774; 30147; 172722; 30803; 194624; 36108; 29410; 29553; 35629; 29442; 29937; 36075; 150203; 34351; 24506; 34976; 17591; 4294967295; 137275; 159237; 4294967295; 35454; 140571; 4294967295; 24829; 30311; 39639; 40260; 37742; 39823; 34805; 4294967295; 34831; 36087; 29484; 38689; 39856; 13782; 29362; 19463; 31825; 39242; 155993; 24921; 19460; 40598; 24957; 4294967295; 22367; 24943; 25254; 25145; 25294; 14940; 25058; 21418; 144373; 25444; 26626; 13778; 23895; 166850; 36826; 167481; 4294967295; 20697; 138566; 30982; 21298; 38456; 134971; 16485; 4294967295; 30718; 4294967295; 31938; 155418; 31962; 31277; 32870; 32867; 32077; 29957; 29938; 35220; 33306; 26380; 32866; 160902; 32859; 29936; 33027; 30500; 35209; 157644; 30035; 159441; 34729; 34766; 33224; 34700; 35401; 36013; 35651; 30507; 29944; 34010; 13877; 27058; 36262; 4294967295; 35241; 29800; 28089; 34753; 147473; 29927; 15835; 29046; 24740; 24988; 15569; 29026; 24695; 4294967295; 32625; 166701; 29264; 24809; 19326; 21024; 15384; 146631; 155351; 161366; 152881; 137540; 135934; 170243; 159196; 159917; 23745; 156077; 166415; 145015; 131310; 157766; 151310; 17762; 23327; 156492; 40784; 40614; 156267];
  [12288; 65292; 12289; 12290; 65294; 8231; 65307; 65306; 65311; 65281; 65072; 8230; 8229; 65104; 65105; 65106; 183; 65108; 65109; 65110; 65111; 65372; 8211; 65073; 8212; 65075; 9588; 65076; 65103; 65288; 65289; 65077; 65078; 65371; 65373; 65079; 65080; 12308; 12309; 65081; 65082; 12304; 12305; 65083; 65084; 12298; 12299; 65085; 65086; 12296; 12297; 65087; 65088; 12300; 12301; 65089; 65090; 12302; 12303; 65091; 65092; 65113; 65114; 65115; 65116; 65117; 65118; 8216; 8217; 8220; 8221; 12317; 12318; 8245; 8242; 65283; 65286; 65290; 8251; 167; 12291; 9675; 9679; 9651; 9650; 9678; 9734; 9733; 9671; 9670; 9633; 9632; 9661; 9660; 12963; 8453; 175; 65507; 65343; 717; 65097; 65098; 65101; 65102; 65099; 65100; 65119; 65120; 65121; 65291; 65293; 215; 247; 177; 8730; 65308; 65310; 65309; 8806; 8807; 8800; 8734; 8786; 8801; 65122; 65123; 65124; 65125; 65126; 65374; 8745; 8746; 8869; 8736; 8735; 8895; 13266; 13265; 8747; 8750; 8757; 8756; 9792; 9794; 8853; 8857; 8593; 8595; 8592; 8594; 8598; 8599; 8601; 8600; 8741; 8739; 65295];
  [65340; 8725; 65128; 65284; 65509; 12306; 65504; 65505; 65285; 65312; 8451; 8457; 65129; 65130; 65131; 13269; 13212; 13213; 13214; 13262; 13217; 13198; 13199; 13252; 176; 20825; 20827; 20830; 20829; 20833; 20835; 21991; 29929; 31950; 9601; 9602; 9603; 9604; 9605; 9606; 9607; 9608; 9615; 9614; 9613; 9612; 9611; 9610; 9609; 9532; 9524; 9516; 9508; 9500; 9620; 9472; 9474; 9621; 9484; 9488; 9492; 9496; 9581; 9582; 9584; 9583; 9552; 9566; 9578; 9569; 9698; 9699; 9701; 9700; 9585; 9586; 9587; 65296; 65297; 65298; 65299; 65300; 65301; 65302; 65303; 65304; 65305; 8544; 8545; 8546; 8547; 8548; 8549; 8550; 8551; 8552; 8553; 12321; 12322; 12323; 12324; 12325; 12326; 12327; 12328; 12329; 21313; 21316; 21317; 65313; 65314; 65315; 65316; 65317; 65318; 65319; 65320; 65321; 65322; 65323; 65324; 65325; 65326; 65327; 65328; 65329; 65330; 65331; 65332; 65333; 65334; 65335; 65336; 65337; 65338; 65345; 65346; 65347; 65348; 65349; 65350; 65351; 65352; 65353; 65354; 65355; 65356; 65357; 65358; 65359; 65360; 65361; 65362; 65363; 65364; 65365; 65366];
  [65367; 65368; 65369; 65370; 913; 914; 915; 916; 917; 918; 919; 920; 921; 922; 923; 924; 925; 926; 927; 928; 929; 931; 932; 933; 934; 935; 936; 937; 945; 946; 947; 948; 949; 950; 951; 952; 953; 954; 955; 956; 957; 958; 959; 960; 961; 963; 964; 965; 966; 967; 968; 969; 12549; 12550; 12551; 12552; 12553; 12554; 12555; 12556; 12557; 12558; 12559; 12560; 12561; 12562; 12563; 12564; 12565; 12566; 12567; 12568; 12569; 12570; 12571; 12572; 12573; 12574; 12575; 12576; 12577; 12578; 12579; 12580; 12581; 12582; 12583; 12584; 12585; 729; 713; 714; 711; 715; 9216; 9217; 9218; 9219; 9220; 9221; 9222; 9223; 9224; 9225; 9226; 9227; 9228; 9229; 9230; 9231; 9232; 9233; 9234; 9235; 9236; 9237; 9238; 9239; 9240; 9241; 9242; 9243; 9244; 9245; 9246; 9247; 9249; 8364; 4294967295; 4294967295; 4294967295; 4294967295; 4294967295; 4294967295; 4294967295; 4294967295; 4294967295; 4294967295; 4294967295; 4294967295; 4294967295; 4294967295; 4294967295; 4294967295; 4294967295; 4294967295; 4294967295; 4294967295; 4294967295; 4294967295; 4294967295; 4294967295; 4294967295; 4294967295; 4294967295; 4294967295; 4294967295];
  [19968; 20057; 19969; 19971; 20035; 20061; 20102; 20108; 20154; 20799; 20837; 20843; 20960; 20992; 20993; 21147; 21269; 21313; 21340; 21448; 19977; 19979; 19976; 19978; 20011; 20024; 20961; 20037; 20040; 20063; 20062; 20110; 20129; 20800; 20995; 21242; 21315; 21449; 21475; 22303; 22763; 22805; 22823; 22899; 23376; 23377; 23379; 23544; 23567; 23586; 23608; 23665; 24029; 24037; 24049; 24050; 24051; 24062; 24178; 24318; 24331; 24339; 25165; 19985; 19984; 19981; 20013; 20016; 20025; 20043; 23609; 20104; 20113; 20117; 20114; 20116; 20130; 20161; 20160; 20163; 20166; 20167; 20173; 20170; 20171; 20164; 20803; 20801; 20839; 20845; 20846; 20844; 20887; 20982; 20998; 20999; 21000; 21243; 21246; 21247; 21270; 21305; 21320; 21319; 21317; 21342; 21380; 21451; 21450; 21453; 22764; 22825; 22827; 22826; 22829; 23380; 23569; 23588; 23610; 23663; 24052; 24187; 24319; 24340; 24341; 24515; 25096; 25142; 25163; 25166; 25903; 25991; 26007; 26020; 26041; 26085; 26352; 26376; 26408; 27424; 27490; 27513; 27595; 27604; 27611; 27663; 27700; 28779; 29226; 29238; 29243; 29255; 29273; 29275; 29356; 29579; 19993];
  [19990; 19989; 19988; 19992; 20027; 20045; 20047; 20046; 20197; 20184; 20180; 20181; 20182; 20183; 20195; 20196; 20185; 20190; 20805; 20804; 20873; 20874; 20908; 20985; 20986; 20984; 21002; 21152; 21151; 21253; 21254; 21271; 21277; 20191; 21322; 21321; 21345; 21344; 21359; 21358; 21435; 21487; 21476; 21491; 21484; 21486; 21481; 21480; 21500; 21496; 21493; 21483; 21478; 21482; 21490; 21489; 21488; 21477; 21485; 21499; 22235; 22234; 22806; 22830; 22833; 22900; 22902; 23381; 23427; 23612; 24040; 24039; 24038; 24066; 24067; 24179; 24188; 24321; 24344; 24343; 24517; 25098; 25171; 25172; 25170; 25169; 26021; 26086; 26414; 26412; 26410; 26411; 26413; 27491; 27597; 27665; 27664; 27704; 27713; 27712; 27710; 29359; 29572; 29577; 29916; 29926; 29976; 29983; 29992; 29993; 30000; 30001; 30002; 30003; 30091; 30333; 30382; 30399; 30446; 30683; 30690; 30707; 31034; 31166; 31348; 31435; 19998; 19999; 20050; 20051; 20073; 20121; 20132; 20134; 20133; 20223; 20233; 20249; 20234; 20245; 20237; 20240; 20241; 20239; 20210; 20214; 20219; 20208; 20211; 20221; 20225; 20235; 20809; 20807; 20806; 20808; 20840];
  [20849; 20877; 20912; 21015; 21009; 21010; 21006; 21014; 21155; 21256; 21281; 21280; 21360; 21361; 21513; 21519; 21516; 21514; 21520; 21505; 21515; 21508; 21521; 21517; 21512; 21507; 21518; 21510; 21522; 22240; 22238; 22237; 22323; 22320; 22312; 22317; 22316; 22319; 22313; 22809; 22810; 22839; 22840; 22916; 22904; 22915; 22909; 22905; 22914; 22913; 23383; 23384; 23431; 23432; 23429; 23433; 23546; 23574; 23673; 24030; 24070; 24182; 24180; 24335; 24347; 24537; 24534; 25102; 25100; 25101; 25104; 25187; 25179; 25176; 25910; 26089; 26088; 26092; 26093; 26354; 26355; 26377; 26429; 26420; 26417; 26421; 27425; 27492; 27515; 27670; 27741; 27735; 27737; 27743; 27744; 27728; 27733; 27745; 27739; 27725; 27726; 28784; 29279; 29277; 30334; 31481; 31859; 31992; 32566; 32650; 32701; 32769; 32771; 32780; 32786; 32819; 32895; 32905; 32907; 32908; 33251; 33258; 33267; 33276; 33292; 33307; 33311; 33390; 33394; 33406; 34411; 34880; 34892; 34915; 35199; 38433; 20018; 20136; 20301; 20303; 20295; 20311; 20318; 20276; 20315; 20309; 20272; 20304; 20305; 20285; 20282; 20280; 20291; 20308; 20284; 20294; 20323];
  [20316; 20320; 20271; 20302; 20278; 20313; 20317; 20296; 20314; 20812; 20811; 20813; 20853; 20918; 20919; 21029; 21028; 21033; 21034; 21032; 21163; 21161; 21162; 21164; 21283; 21363; 21365; 21533; 21549; 21534; 21566; 21542; 21582; 21543; 21574; 21571; 21555; 21576; 21570; 21531; 21545; 21578; 21561; 21563; 21560; 21550; 21557; 21558; 21536; 21564; 21568; 21553; 21547; 21535; 21548; 22250; 22256; 22244; 22251; 22346; 22353; 22336; 22349; 22343; 22350; 22334; 22352; 22351; 22331; 22767; 22846; 22941; 22930; 22952; 22942; 22947; 22937; 22934; 22925; 22948; 22931; 22922; 22949; 23389; 23388; 23386; 23387; 23436; 23435; 23439; 23596; 23616; 23617; 23615; 23614; 23696; 23697; 23700; 23692; 24043; 24076; 24207; 24199; 24202; 24311; 24324; 24351; 24420; 24418; 24439; 24441; 24536; 24524; 24535; 24525; 24561; 24555; 24568; 24554; 25106; 25105; 25220; 25239; 25238; 25216; 25206; 25225; 25197; 25226; 25212; 25214; 25209; 25203; 25234; 25199; 25240; 25198; 25237; 25235; 25233; 25222; 25913; 25915; 25912; 26097; 26356; 26463; 26446; 26447; 26448; 26449; 26460; 26454; 26462; 26441; 26438; 26464];
  [26451; 26455; 27493; 27599; 27714; 27742; 27801; 27777; 27784; 27785; 27781; 27803; 27754; 27770; 27792; 27760; 27788; 27752; 27798; 27794; 27773; 27779; 27762; 27774; 27764; 27782; 27766; 27789; 27796; 27800; 27778; 28790; 28796; 28797; 28792; 29282; 29281; 29280; 29380; 29378; 29590; 29996; 29995; 30007; 30008; 30338; 30447; 30691; 31169; 31168; 31167; 31350; 31995; 32597; 32918; 32915; 32925; 32920; 32923; 32922; 32946; 33391; 33426; 33419; 33421; 35211; 35282; 35328; 35895; 35910; 35925; 35997; 36196; 36208; 36275; 36523; 36554; 36763; 36784; 36802; 36806; 36805; 36804; 24033; 37009; 37026; 37034; 37030; 37027; 37193; 37318; 37324; 38450; 38446; 38449; 38442; 38444; 20006; 20054; 20083; 20107; 20123; 20126; 20139; 20140; 20335; 20381; 20365; 20339; 20351; 20332; 20379; 20363; 20358; 20355; 20336; 20341; 20360; 20329; 20347; 20374; 20350; 20367; 20369; 20346; 20820; 20818; 20821; 20841; 20855; 20854; 20856; 20925; 20989; 21051; 21048; 21047; 21050; 21040; 21038; 21046; 21057; 21182; 21179; 21330; 21332; 21331; 21329; 21350; 21367; 21368; 21369; 21462; 21460; 21463; 21619; 21621];
  [21654; 21624; 21653; 21632; 21627; 21623; 21636; 21650; 21638; 21628; 21648; 21617; 21622; 21644; 21658; 21602; 21608; 21643; 21629; 21646; 22266; 22403; 22391; 22378; 22377; 22369; 22374; 22372; 22396; 22812; 22857; 22855; 22856; 22852; 22868; 22974; 22971; 22996; 22969; 22958; 22993; 22982; 22992; 22989; 22987; 22995; 22986; 22959; 22963; 22994; 22981; 23391; 23396; 23395; 23447; 23450; 23448; 23452; 23449; 23451; 23578; 23624; 23621; 23622; 23735; 23713; 23736; 23721; 23723; 23729; 23731; 24088; 24090; 24086; 24085; 24091; 24081; 24184; 24218; 24215; 24220; 24213; 24214; 24310; 24358; 24359; 24361; 24448; 24449; 24447; 24444; 24541; 24544; 24573; 24565; 24575; 24591; 24596; 24623; 24629; 24598; 24618; 24597; 24609; 24615; 24617; 24619; 24603; 25110; 25109; 25151; 25150; 25152; 25215; 25289; 25292; 25284; 25279; 25282; 25273; 25298; 25307; 25259; 25299; 25300; 25291; 25288; 25256; 25277; 25276; 25296; 25305; 25287; 25293; 25269; 25306; 25265; 25304; 25302; 25303; 25286; 25260; 25294; 25918; 26023; 26044; 26106; 26132; 26131; 26124; 26118; 26114; 26126; 26112; 26127; 26133; 26122];
  [26119; 26381; 26379; 26477; 26507; 26517; 26481; 26524; 26483; 26487; 26503; 26525; 26519; 26479; 26480; 26495; 26505; 26494; 26512; 26485; 26522; 26515; 26492; 26474; 26482; 27427; 27494; 27495; 27519; 27667; 27675; 27875; 27880; 27891; 27825; 27852; 27877; 27827; 27837; 27838; 27836; 27874; 27819; 27861; 27859; 27832; 27844; 27833; 27841; 27822; 27863; 27845; 27889; 27839; 27835; 27873; 27867; 27850; 27820; 27887; 27868; 27862; 27872; 28821; 28814; 28818; 28810; 28825; 29228; 29229; 29240; 29256; 29287; 29289; 29376; 29390; 29401; 29399; 29392; 29609; 29608; 29599; 29611; 29605; 30013; 30109; 30105; 30106; 30340; 30402; 30450; 30452; 30693; 30717; 31038; 31040; 31041; 31177; 31176; 31354; 31353; 31482; 31998; 32596; 32652; 32651; 32773; 32954; 32933; 32930; 32945; 32929; 32939; 32937; 32948; 32938; 32943; 33253; 33278; 33293; 33459; 33437; 33433; 33453; 33469; 33439; 33465; 33457; 33452; 33445; 33455; 33464; 33443; 33456; 33470; 33463; 34382; 34417; 21021; 34920; 36555; 36814; 36820; 36817; 37045; 37048; 37041; 37046; 37319; 37329; 38263; 38272; 38428; 38464; 38463; 38459; 38468];
  [38466; 38585; 38632; 38738; 38750; 20127; 20141; 20142; 20449; 20405; 20399; 20415; 20448; 20433; 20431; 20445; 20419; 20406; 20440; 20447; 20426; 20439; 20398; 20432; 20420; 20418; 20442; 20430; 20446; 20407; 20823; 20882; 20881; 20896; 21070; 21059; 21066; 21069; 21068; 21067; 21063; 21191; 21193; 21187; 21185; 21261; 21335; 21371; 21402; 21467; 21676; 21696; 21672; 21710; 21705; 21688; 21670; 21683; 21703; 21698; 21693; 21674; 21697; 21700; 21704; 21679; 21675; 21681; 21691; 21673; 21671; 21695; 22271; 22402; 22411; 22432; 22435; 22434; 22478; 22446; 22419; 22869; 22865; 22863; 22862; 22864; 23004; 23000; 23039; 23011; 23016; 23043; 23013; 23018; 23002; 23014; 23041; 23035; 23401; 23459; 23462; 23460; 23458; 23461; 23553; 23630; 23631; 23629; 23627; 23769; 23762; 24055; 24093; 24101; 24095; 24189; 24224; 24230; 24314; 24328; 24365; 24421; 24456; 24453; 24458; 24459; 24455; 24460; 24457; 24594; 24605; 24608; 24613; 24590; 24616; 24653; 24688; 24680; 24674; 24646; 24643; 24684; 24683; 24682; 24676; 25153; 25308; 25366; 25353; 25340; 25325; 25345; 25326; 25341; 25351; 25329; 25335];
  [25327; 25324; 25342; 25332; 25361; 25346; 25919; 25925; 26027; 26045; 26082; 26149; 26157; 26144; 26151; 26159; 26143; 26152; 26161; 26148; 26359; 26623; 26579; 26609; 26580; 26576; 26604; 26550; 26543; 26613; 26601; 26607; 26564; 26577; 26548; 26586; 26597; 26552; 26575; 26590; 26611; 26544; 26585; 26594; 26589; 26578; 27498; 27523; 27526; 27573; 27602; 27607; 27679; 27849; 27915; 27954; 27946; 27969; 27941; 27916; 27953; 27934; 27927; 27963; 27965; 27966; 27958; 27931; 27893; 27961; 27943; 27960; 27945; 27950; 27957; 27918; 27947; 28843; 28858; 28851; 28844; 28847; 28845; 28856; 28846; 28836; 29232; 29298; 29295; 29300; 29417; 29408; 29409; 29623; 29642; 29627; 29618; 29645; 29632; 29619; 29978; 29997; 30031; 30028; 30030; 30027; 30123; 30116; 30117; 30114; 30115; 30328; 30342; 30343; 30344; 30408; 30406; 30403; 30405; 30465; 30457; 30456; 30473; 30475; 30462; 30460; 30471; 30684; 30722; 30740; 30732; 30733; 31046; 31049; 31048; 31047; 31161; 31162; 31185; 31186; 31179; 31359; 31361; 31487; 31485; 31869; 32002; 32005; 32000; 32009; 32007; 32004; 32006; 32568; 32654; 32703; 32772];
  [32784; 32781; 32785; 32822; 32982; 32997; 32986; 32963; 32964; 32972; 32993; 32987; 32974; 32990; 32996; 32989; 33268; 33314; 33511; 33539; 33541; 33507; 33499; 33510; 33540; 33509; 33538; 33545; 33490; 33495; 33521; 33537; 33500; 33492; 33489; 33502; 33491; 33503; 33519; 33542; 34384; 34425; 34427; 34426; 34893; 34923; 35201; 35284; 35336; 35330; 35331; 35998; 36000; 36212; 36211; 36276; 36557; 36556; 36848; 36838; 36834; 36842; 36837; 36845; 36843; 36836; 36840; 37066; 37070; 37057; 37059; 37195; 37194; 37325; 38274; 38480; 38475; 38476; 38477; 38754; 38761; 38859; 38893; 38899; 38913; 39080; 39131; 39135; 39318; 39321; 20056; 20147; 20492; 20493; 20515; 20463; 20518; 20517; 20472; 20521; 20502; 20486; 20540; 20511; 20506; 20498; 20497; 20474; 20480; 20500; 20520; 20465; 20513; 20491; 20505; 20504; 20467; 20462; 20525; 20522; 20478; 20523; 20489; 20860; 20900; 20901; 20898; 20941; 20940; 20934; 20939; 21078; 21084; 21076; 21083; 21085; 21290; 21375; 21407; 21405; 21471; 21736; 21776; 21761; 21815; 21756; 21733; 21746; 21766; 21754; 21780; 21737; 21741; 21729; 21769; 21742; 21738];
  [21734; 21799; 21767; 21757; 21775; 22275; 22276; 22466; 22484; 22475; 22467; 22537; 22799; 22871; 22872; 22874; 23057; 23064; 23068; 23071; 23067; 23059; 23020; 23072; 23075; 23081; 23077; 23052; 23049; 23403; 23640; 23472; 23475; 23478; 23476; 23470; 23477; 23481; 23480; 23556; 23633; 23637; 23632; 23789; 23805; 23803; 23786; 23784; 23792; 23798; 23809; 23796; 24046; 24109; 24107; 24235; 24237; 24231; 24369; 24466; 24465; 24464; 24665; 24675; 24677; 24656; 24661; 24685; 24681; 24687; 24708; 24735; 24730; 24717; 24724; 24716; 24709; 24726; 25159; 25331; 25352; 25343; 25422; 25406; 25391; 25429; 25410; 25414; 25423; 25417; 25402; 25424; 25405; 25386; 25387; 25384; 25421; 25420; 25928; 25929; 26009; 26049; 26053; 26178; 26185; 26191; 26179; 26194; 26188; 26181; 26177; 26360; 26388; 26389; 26391; 26657; 26680; 26696; 26694; 26707; 26681; 26690; 26708; 26665; 26803; 26647; 26700; 26705; 26685; 26612; 26704; 26688; 26684; 26691; 26666; 26693; 26643; 26648; 26689; 27530; 27529; 27575; 27683; 27687; 27688; 27686; 27684; 27888; 28010; 28053; 28040; 28039; 28006; 28024; 28023; 27993; 28051];
  [28012; 28041; 28014; 27994; 28020; 28009; 28044; 28042; 28025; 28037; 28005; 28052; 28874; 28888; 28900; 28889; 28872; 28879; 29241; 29305; 29436; 29433; 29437; 29432; 29431; 29574; 29677; 29705; 29678; 29664; 29674; 29662; 30036; 30045; 30044; 30042; 30041; 30142; 30149; 30151; 30130; 30131; 30141; 30140; 30137; 30146; 30136; 30347; 30384; 30410; 30413; 30414; 30505; 30495; 30496; 30504; 30697; 30768; 30759; 30776; 30749; 30772; 30775; 30757; 30765; 30752; 30751; 30770; 31061; 31056; 31072; 31071; 31062; 31070; 31069; 31063; 31066; 31204; 31203; 31207; 31199; 31206; 31209; 31192; 31364; 31368; 31449; 31494; 31505; 31881; 32033; 32023; 32011; 32010; 32032; 32034; 32020; 32016; 32021; 32026; 32028; 32013; 32025; 32027; 32570; 32607; 32660; 32709; 32705; 32774; 32792; 32789; 32793; 32791; 32829; 32831; 33009; 33026; 33008; 33029; 33005; 33012; 33030; 33016; 33011; 33032; 33021; 33034; 33020; 33007; 33261; 33260; 33280; 33296; 33322; 33323; 33320; 33324; 33467; 33579; 33618; 33620; 33610; 33592; 33616; 33609; 33589; 33588; 33615; 33586; 33593; 33590; 33559; 33600; 33585; 33576; 33603];
  [34388; 34442; 34474; 34451; 34468; 34473; 34444; 34467; 34460; 34928; 34935; 34945; 34946; 34941; 34937; 35352; 35344; 35342; 35340; 35349; 35338; 35351; 35347; 35350; 35343; 35345; 35912; 35962; 35961; 36001; 36002; 36215; 36524; 36562; 36564; 36559; 36785; 36865; 36870; 36855; 36864; 36858; 36852; 36867; 36861; 36869; 36856; 37013; 37089; 37085; 37090; 37202; 37197; 37196; 37336; 37341; 37335; 37340; 37337; 38275; 38498; 38499; 38497; 38491; 38493; 38500; 38488; 38494; 38587; 39138; 39340; 39592; 39640; 39717; 39730; 39740; 20094; 20602; 20605; 20572; 20551; 20547; 20556; 20570; 20553; 20581; 20598; 20558; 20565; 20597; 20596; 20599; 20559; 20495; 20591; 20589; 20828; 20885; 20976; 21098; 21103; 21202; 21209; 21208; 21205; 21264; 21263; 21273; 21311; 21312; 21310; 21443; 26364; 21830; 21866; 21862; 21828; 21854; 21857; 21827; 21834; 21809; 21846; 21839; 21845; 21807; 21860; 21816; 21806; 21852; 21804; 21859; 21811; 21825; 21847; 22280; 22283; 22281; 22495; 22533; 22538; 22534; 22496; 22500; 22522; 22530; 22581; 22519; 22521; 22816; 22882; 23094; 23105; 23113; 23142; 23146; 23104];
  [23100; 23138; 23130; 23110; 23114; 23408; 23495; 23493; 23492; 23490; 23487; 23494; 23561; 23560; 23559; 23648; 23644; 23645; 23815; 23814; 23822; 23835; 23830; 23842; 23825; 23849; 23828; 23833; 23844; 23847; 23831; 24034; 24120; 24118; 24115; 24119; 24247; 24248; 24246; 24245; 24254; 24373; 24375; 24407; 24428; 24425; 24427; 24471; 24473; 24478; 24472; 24481; 24480; 24476; 24703; 24739; 24713; 24736; 24744; 24779; 24756; 24806; 24765; 24773; 24763; 24757; 24796; 24764; 24792; 24789; 24774; 24799; 24760; 24794; 24775; 25114; 25115; 25160; 25504; 25511; 25458; 25494; 25506; 25509; 25463; 25447; 25496; 25514; 25457; 25513; 25481; 25475; 25499; 25451; 25512; 25476; 25480; 25497; 25505; 25516; 25490; 25487; 25472; 25467; 25449; 25448; 25466; 25949; 25942; 25937; 25945; 25943; 21855; 25935; 25944; 25941; 25940; 26012; 26011; 26028; 26063; 26059; 26060; 26062; 26205; 26202; 26212; 26216; 26214; 26206; 26361; 21207; 26395; 26753; 26799; 26786; 26771; 26805; 26751; 26742; 26801; 26791; 26775; 26800; 26755; 26820; 26797; 26758; 26757; 26772; 26781; 26792; 26783; 26785; 26754; 27442; 27578];
  [27627; 27628; 27691; 28046; 28092; 28147; 28121; 28082; 28129; 28108; 28132; 28155; 28154; 28165; 28103; 28107; 28079; 28113; 28078; 28126; 28153; 28088; 28151; 28149; 28101; 28114; 28186; 28085; 28122; 28139; 28120; 28138; 28145; 28142; 28136; 28102; 28100; 28074; 28140; 28095; 28134; 28921; 28937; 28938; 28925; 28911; 29245; 29309; 29313; 29468; 29467; 29462; 29459; 29465; 29575; 29701; 29706; 29699; 29702; 29694; 29709; 29920; 29942; 29943; 29980; 29986; 30053; 30054; 30050; 30064; 30095; 30164; 30165; 30133; 30154; 30157; 30350; 30420; 30418; 30427; 30519; 30526; 30524; 30518; 30520; 30522; 30827; 30787; 30798; 31077; 31080; 31085; 31227; 31378; 31381; 31520; 31528; 31515; 31532; 31526; 31513; 31518; 31534; 31890; 31895; 31893; 32070; 32067; 32113; 32046; 32057; 32060; 32064; 32048; 32051; 32068; 32047; 32066; 32050; 32049; 32573; 32670; 32666; 32716; 32718; 32722; 32796; 32842; 32838; 33071; 33046; 33059; 33067; 33065; 33072; 33060; 33282; 33333; 33335; 33334; 33337; 33678; 33694; 33688; 33656; 33698; 33686; 33725; 33707; 33682; 33674; 33683; 33673; 33696; 33655; 33659; 33660];
  [33670; 33703; 34389; 24426; 34503; 34496; 34486; 34500; 34485; 34502; 34507; 34481; 34479; 34505; 34899; 34974; 34952; 34987; 34962; 34966; 34957; 34955; 35219; 35215; 35370; 35357; 35363; 35365; 35377; 35373; 35359; 35355; 35362; 35913; 35930; 36009; 36012; 36011; 36008; 36010; 36007; 36199; 36198; 36286; 36282; 36571; 36575; 36889; 36877; 36890; 36887; 36899; 36895; 36893; 36880; 36885; 36894; 36896; 36879; 36898; 36886; 36891; 36884; 37096; 37101; 37117; 37207; 37326; 37365; 37350; 37347; 37351; 37357; 37353; 38281; 38506; 38517; 38515; 38520; 38512; 38516; 38518; 38519; 38508; 38592; 38634; 38633; 31456; 31455; 38914; 38915; 39770; 40165; 40565; 40575; 40613; 40635; 20642; 20621; 20613; 20633; 20625; 20608; 20630; 20632; 20634; 26368; 20977; 21106; 21108; 21109; 21097; 21214; 21213; 21211; 21338; 21413; 21883; 21888; 21927; 21884; 21898; 21917; 21912; 21890; 21916; 21930; 21908; 21895; 21899; 21891; 21939; 21934; 21919; 21822; 21938; 21914; 21947; 21932; 21937; 21886; 21897; 21931; 21913; 22285; 22575; 22570; 22580; 22564; 22576; 22577; 22561; 22557; 22560; 22777; 22778; 22880];
  [23159; 23194; 23167; 23186; 23195; 23207; 23411; 23409; 23506; 23500; 23507; 23504; 23562; 23563; 23601; 23884; 23888; 23860; 23879; 24061; 24133; 24125; 24128; 24131; 24190; 24266; 24257; 24258; 24260; 24380; 24429; 24489; 24490; 24488; 24785; 24801; 24754; 24758; 24800; 24860; 24867; 24826; 24853; 24816; 24827; 24820; 24936; 24817; 24846; 24822; 24841; 24832; 24850; 25119; 25161; 25507; 25484; 25551; 25536; 25577; 25545; 25542; 25549; 25554; 25571; 25552; 25569; 25558; 25581; 25582; 25462; 25588; 25578; 25563; 25682; 25562; 25593; 25950; 25958; 25954; 25955; 26001; 26000; 26031; 26222; 26224; 26228; 26230; 26223; 26257; 26234; 26238; 26231; 26366; 26367; 26399; 26397; 26874; 26837; 26848; 26840; 26839; 26885; 26847; 26869; 26862; 26855; 26873; 26834; 26866; 26851; 26827; 26829; 26893; 26898; 26894; 26825; 26842; 26990; 26875; 27454; 27450; 27453; 27544; 27542; 27580; 27631; 27694; 27695; 27692; 28207; 28216; 28244; 28193; 28210; 28263; 28234; 28192; 28197; 28195; 28187; 28251; 28248; 28196; 28246; 28270; 28205; 28198; 28271; 28212; 28237; 28218; 28204; 28227; 28189; 28222; 28363];
  [28297; 28185; 28238; 28259; 28228; 28274; 28265; 28255; 28953; 28954; 28966; 28976; 28961; 28982; 29038; 28956; 29260; 29316; 29312; 29494; 29477; 29492; 29481; 29754; 29738; 29747; 29730; 29733; 29749; 29750; 29748; 29743; 29723; 29734; 29736; 29989; 29990; 30059; 30058; 30178; 30171; 30179; 30169; 30168; 30174; 30176; 30331; 30332; 30358; 30355; 30388; 30428; 30543; 30701; 30813; 30828; 30831; 31245; 31240; 31243; 31237; 31232; 31384; 31383; 31382; 31461; 31459; 31561; 31574; 31558; 31568; 31570; 31572; 31565; 31563; 31567; 31569; 31903; 31909; 32094; 32080; 32104; 32085; 32043; 32110; 32114; 32097; 32102; 32098; 32112; 32115; 21892; 32724; 32725; 32779; 32850; 32901; 33109; 33108; 33099; 33105; 33102; 33081; 33094; 33086; 33100; 33107; 33140; 33298; 33308; 33769; 33795; 33784; 33805; 33760; 33733; 33803; 33729; 33775; 33777; 33780; 33879; 33802; 33776; 33804; 33740; 33789; 33778; 33738; 33848; 33806; 33796; 33756; 33799; 33748; 33759; 34395; 34527; 34521; 34541; 34516; 34523; 34532; 34512; 34526; 34903; 35009; 35010; 34993; 35203; 35222; 35387; 35424; 35413; 35422; 35388; 35393];
  [35412; 35419; 35408; 35398; 35380; 35386; 35382; 35414; 35937; 35970; 36015; 36028; 36019; 36029; 36033; 36027; 36032; 36020; 36023; 36022; 36031; 36024; 36234; 36229; 36225; 36302; 36317; 36299; 36314; 36305; 36300; 36315; 36294; 36603; 36600; 36604; 36764; 36910; 36917; 36913; 36920; 36914; 36918; 37122; 37109; 37129; 37118; 37219; 37221; 37327; 37396; 37397; 37411; 37385; 37406; 37389; 37392; 37383; 37393; 38292; 38287; 38283; 38289; 38291; 38290; 38286; 38538; 38542; 38539; 38525; 38533; 38534; 38541; 38514; 38532; 38593; 38597; 38596; 38598; 38599; 38639; 38642; 38860; 38917; 38918; 38920; 39143; 39146; 39151; 39145; 39154; 39149; 39342; 39341; 40643; 40653; 40657; 20098; 20653; 20661; 20658; 20659; 20677; 20670; 20652; 20663; 20667; 20655; 20679; 21119; 21111; 21117; 21215; 21222; 21220; 21218; 21219; 21295; 21983; 21992; 21971; 21990; 21966; 21980; 21959; 21969; 21987; 21988; 21999; 21978; 21985; 21957; 21958; 21989; 21961; 22290; 22291; 22622; 22609; 22616; 22615; 22618; 22612; 22635; 22604; 22637; 22602; 22626; 22610; 22603; 22887; 23233; 23241; 23244; 23230; 23229; 23228];
  [23219; 23234; 23218; 23913; 23919; 24140; 24185; 24265; 24264; 24338; 24409; 24492; 24494; 24858; 24847; 24904; 24863; 24819; 24859; 24825; 24833; 24840; 24910; 24908; 24900; 24909; 24894; 24884; 24871; 24845; 24838; 24887; 25121; 25122; 25619; 25662; 25630; 25642; 25645; 25661; 25644; 25615; 25628; 25620; 25613; 25654; 25622; 25623; 25606; 25964; 26015; 26032; 26263; 26249; 26247; 26248; 26262; 26244; 26264; 26253; 26371; 27028; 26989; 26970; 26999; 26976; 26964; 26997; 26928; 27010; 26954; 26984; 26987; 26974; 26963; 27001; 27014; 26973; 26979; 26971; 27463; 27506; 27584; 27583; 27603; 27645; 28322; 28335; 28371; 28342; 28354; 28304; 28317; 28359; 28357; 28325; 28312; 28348; 28346; 28331; 28369; 28310; 28316; 28356; 28372; 28330; 28327; 28340; 29006; 29017; 29033; 29028; 29001; 29031; 29020; 29036; 29030; 29004; 29029; 29022; 28998; 29032; 29014; 29242; 29266; 29495; 29509; 29503; 29502; 29807; 29786; 29781; 29791; 29790; 29761; 29759; 29785; 29787; 29788; 30070; 30072; 30208; 30192; 30209; 30194; 30193; 30202; 30207; 30196; 30195; 30430; 30431; 30555; 30571; 30566; 30558; 30563];
  [30585; 30570; 30572; 30556; 30565; 30568; 30562; 30702; 30862; 30896; 30871; 30872; 30860; 30857; 30844; 30865; 30867; 30847; 31098; 31103; 31105; 33836; 31165; 31260; 31258; 31264; 31252; 31263; 31262; 31391; 31392; 31607; 31680; 31584; 31598; 31591; 31921; 31923; 31925; 32147; 32121; 32145; 32129; 32143; 32091; 32622; 32617; 32618; 32626; 32681; 32680; 32676; 32854; 32856; 32902; 32900; 33137; 33136; 33144; 33125; 33134; 33139; 33131; 33145; 33146; 33126; 33285; 33351; 33922; 33911; 33853; 33841; 33909; 33894; 33899; 33865; 33900; 33883; 33852; 33845; 33889; 33891; 33897; 33901; 33862; 34398; 34396; 34399; 34553; 34579; 34568; 34567; 34560; 34558; 34555; 34562; 34563; 34566; 34570; 34905; 35039; 35028; 35033; 35036; 35032; 35037; 35041; 35018; 35029; 35026; 35228; 35299; 35435; 35442; 35443; 35430; 35433; 35440; 35463; 35452; 35427; 35488; 35441; 35461; 35437; 35426; 35438; 35436; 35449; 35451; 35390; 35432; 35938; 35978; 35977; 36042; 36039; 36040; 36036; 36018; 36035; 36034; 36037; 36321; 36319; 36328; 36335; 36339; 36346; 36330; 36324; 36326; 36530; 36611; 36617; 36606; 36618];
  [36767; 36786; 36939; 36938; 36947; 36930; 36948; 36924; 36949; 36944; 36935; 36943; 36942; 36941; 36945; 36926; 36929; 37138; 37143; 37228; 37226; 37225; 37321; 37431; 37463; 37432; 37437; 37440; 37438; 37467; 37451; 37476; 37457; 37428; 37449; 37453; 37445; 37433; 37439; 37466; 38296; 38552; 38548; 38549; 38605; 38603; 38601; 38602; 38647; 38651; 38649; 38646; 38742; 38772; 38774; 38928; 38929; 38931; 38922; 38930; 38924; 39164; 39156; 39165; 39166; 39347; 39345; 39348; 39649; 40169; 40578; 40718; 40723; 40736; 20711; 20718; 20709; 20694; 20717; 20698; 20693; 20687; 20689; 20721; 20686; 20713; 20834; 20979; 21123; 21122; 21297; 21421; 22014; 22016; 22043; 22039; 22013; 22036; 22022; 22025; 22029; 22030; 22007; 22038; 22047; 22024; 22032; 22006; 22296; 22294; 22645; 22654; 22659; 22675; 22666; 22649; 22661; 22653; 22781; 22821; 22818; 22820; 22890; 22889; 23265; 23270; 23273; 23255; 23254; 23256; 23267; 23413; 23518; 23527; 23521; 23525; 23526; 23528; 23522; 23524; 23519; 23565; 23650; 23940; 23943; 24155; 24163; 24149; 24151; 24148; 24275; 24278; 24330; 24390; 24432; 24505; 24903];
  [24895; 24907; 24951; 24930; 24931; 24927; 24922; 24920; 24949; 25130; 25735; 25688; 25684; 25764; 25720; 25695; 25722; 25681; 25703; 25652; 25709; 25723; 25970; 26017; 26071; 26070; 26274; 26280; 26269; 27036; 27048; 27029; 27073; 27054; 27091; 27083; 27035; 27063; 27067; 27051; 27060; 27088; 27085; 27053; 27084; 27046; 27075; 27043; 27465; 27468; 27699; 28467; 28436; 28414; 28435; 28404; 28457; 28478; 28448; 28460; 28431; 28418; 28450; 28415; 28399; 28422; 28465; 28472; 28466; 28451; 28437; 28459; 28463; 28552; 28458; 28396; 28417; 28402; 28364; 28407; 29076; 29081; 29053; 29066; 29060; 29074; 29246; 29330; 29334; 29508; 29520; 29796; 29795; 29802; 29808; 29805; 29956; 30097; 30247; 30221; 30219; 30217; 30227; 30433; 30435; 30596; 30589; 30591; 30561; 30913; 30879; 30887; 30899; 30889; 30883; 31118; 31119; 31117; 31278; 31281; 31402; 31401; 31469; 31471; 31649; 31637; 31627; 31605; 31639; 31645; 31636; 31631; 31672; 31623; 31620; 31929; 31933; 31934; 32187; 32176; 32156; 32189; 32190; 32160; 32202; 32180; 32178; 32177; 32186; 32162; 32191; 32181; 32184; 32173; 32210; 32199; 32172];
  [32624; 32736; 32737; 32735; 32862; 32858; 32903; 33104; 33152; 33167; 33160; 33162; 33151; 33154; 33255; 33274; 33287; 33300; 33310; 33355; 33993; 33983; 33990; 33988; 33945; 33950; 33970; 33948; 33995; 33976; 33984; 34003; 33936; 33980; 34001; 33994; 34623; 34588; 34619; 34594; 34597; 34612; 34584; 34645; 34615; 34601; 35059; 35074; 35060; 35065; 35064; 35069; 35048; 35098; 35055; 35494; 35468; 35486; 35491; 35469; 35489; 35475; 35492; 35498; 35493; 35496; 35480; 35473; 35482; 35495; 35946; 35981; 35980; 36051; 36049; 36050; 36203; 36249; 36245; 36348; 36628; 36626; 36629; 36627; 36771; 36960; 36952; 36956; 36963; 36953; 36958; 36962; 36957; 36955; 37145; 37144; 37150; 37237; 37240; 37239; 37236; 37496; 37504; 37509; 37528; 37526; 37499; 37523; 37532; 37544; 37500; 37521; 38305; 38312; 38313; 38307; 38309; 38308; 38553; 38556; 38555; 38604; 38610; 38656; 38780; 38789; 38902; 38935; 38936; 39087; 39089; 39171; 39173; 39180; 39177; 39361; 39599; 39600; 39654; 39745; 39746; 40180; 40182; 40179; 40636; 40763; 40778; 20740; 20736; 20731; 20725; 20729; 20738; 20744; 20745; 20741; 20956];
  [21127; 21128; 21129; 21133; 21130; 21232; 21426; 22062; 22075; 22073; 22066; 22079; 22068; 22057; 22099; 22094; 22103; 22132; 22070; 22063; 22064; 22656; 22687; 22686; 22707; 22684; 22702; 22697; 22694; 22893; 23305; 23291; 23307; 23285; 23308; 23304; 23534; 23532; 23529; 23531; 23652; 23653; 23965; 23956; 24162; 24159; 24161; 24290; 24282; 24287; 24285; 24291; 24288; 24392; 24433; 24503; 24501; 24950; 24935; 24942; 24925; 24917; 24962; 24956; 24944; 24939; 24958; 24999; 24976; 25003; 24974; 25004; 24986; 24996; 24980; 25006; 25134; 25705; 25711; 25721; 25758; 25778; 25736; 25744; 25776; 25765; 25747; 25749; 25769; 25746; 25774; 25773; 25771; 25754; 25772; 25753; 25762; 25779; 25973; 25975; 25976; 26286; 26283; 26292; 26289; 27171; 27167; 27112; 27137; 27166; 27161; 27133; 27169; 27155; 27146; 27123; 27138; 27141; 27117; 27153; 27472; 27470; 27556; 27589; 27590; 28479; 28540; 28548; 28497; 28518; 28500; 28550; 28525; 28507; 28536; 28526; 28558; 28538; 28528; 28516; 28567; 28504; 28373; 28527; 28512; 28511; 29087; 29100; 29105; 29096; 29270; 29339; 29518; 29527; 29801; 29835; 29827];
  [29822; 29824; 30079; 30240; 30249; 30239; 30244; 30246; 30241; 30242; 30362; 30394; 30436; 30606; 30599; 30604; 30609; 30603; 30923; 30917; 30906; 30922; 30910; 30933; 30908; 30928; 31295; 31292; 31296; 31293; 31287; 31291; 31407; 31406; 31661; 31665; 31684; 31668; 31686; 31687; 31681; 31648; 31692; 31946; 32224; 32244; 32239; 32251; 32216; 32236; 32221; 32232; 32227; 32218; 32222; 32233; 32158; 32217; 32242; 32249; 32629; 32631; 32687; 32745; 32806; 33179; 33180; 33181; 33184; 33178; 33176; 34071; 34109; 34074; 34030; 34092; 34093; 34067; 34065; 34083; 34081; 34068; 34028; 34085; 34047; 34054; 34690; 34676; 34678; 34656; 34662; 34680; 34664; 34649; 34647; 34636; 34643; 34907; 34909; 35088; 35079; 35090; 35091; 35093; 35082; 35516; 35538; 35527; 35524; 35477; 35531; 35576; 35506; 35529; 35522; 35519; 35504; 35542; 35533; 35510; 35513; 35547; 35916; 35918; 35948; 36064; 36062; 36070; 36068; 36076; 36077; 36066; 36067; 36060; 36074; 36065; 36205; 36255; 36259; 36395; 36368; 36381; 36386; 36367; 36393; 36383; 36385; 36382; 36538; 36637; 36635; 36639; 36649; 36646; 36650; 36636; 36638];
  [36645; 36969; 36974; 36968; 36973; 36983; 37168; 37165; 37159; 37169; 37255; 37257; 37259; 37251; 37573; 37563; 37559; 37610; 37548; 37604; 37569; 37555; 37564; 37586; 37575; 37616; 37554; 38317; 38321; 38660; 38662; 38663; 38665; 38752; 38797; 38795; 38799; 38945; 38955; 38940; 39091; 39178; 39187; 39186; 39192; 39389; 39376; 39391; 39387; 39377; 39381; 39378; 39385; 39607; 39662; 39663; 39719; 39749; 39748; 39799; 39791; 40198; 40201; 40195; 40617; 40638; 40654; 22696; 40786; 20754; 20760; 20756; 20752; 20757; 20864; 20906; 20957; 21137; 21139; 21235; 22105; 22123; 22137; 22121; 22116; 22136; 22122; 22120; 22117; 22129; 22127; 22124; 22114; 22134; 22721; 22718; 22727; 22725; 22894; 23325; 23348; 23416; 23536; 23566; 24394; 25010; 24977; 25001; 24970; 25037; 25014; 25022; 25034; 25032; 25136; 25797; 25793; 25803; 25787; 25788; 25818; 25796; 25799; 25794; 25805; 25791; 25810; 25812; 25790; 25972; 26310; 26313; 26297; 26308; 26311; 26296; 27197; 27192; 27194; 27225; 27243; 27224; 27193; 27204; 27234; 27233; 27211; 27207; 27189; 27231; 27208; 27481; 27511; 27653; 28610; 28593; 28577];
  [28611; 28580; 28609; 28583; 28595; 28608; 28601; 28598; 28582; 28576; 28596; 29118; 29129; 29136; 29138; 29128; 29141; 29113; 29134; 29145; 29148; 29123; 29124; 29544; 29852; 29859; 29848; 29855; 29854; 29922; 29964; 29965; 30260; 30264; 30266; 30439; 30437; 30624; 30622; 30623; 30629; 30952; 30938; 30956; 30951; 31142; 31309; 31310; 31302; 31308; 31307; 31418; 31705; 31761; 31689; 31716; 31707; 31713; 31721; 31718; 31957; 31958; 32266; 32273; 32264; 32283; 32291; 32286; 32285; 32265; 32272; 32633; 32690; 32752; 32753; 32750; 32808; 33203; 33193; 33192; 33275; 33288; 33368; 33369; 34122; 34137; 34120; 34152; 34153; 34115; 34121; 34157; 34154; 34142; 34691; 34719; 34718; 34722; 34701; 34913; 35114; 35122; 35109; 35115; 35105; 35242; 35238; 35558; 35578; 35563; 35569; 35584; 35548; 35559; 35566; 35582; 35585; 35586; 35575; 35565; 35571; 35574; 35580; 35947; 35949; 35987; 36084; 36420; 36401; 36404; 36418; 36409; 36405; 36667; 36655; 36664; 36659; 36776; 36774; 36981; 36980; 36984; 36978; 36988; 36986; 37172; 37266; 37664; 37686; 37624; 37683; 37679; 37666; 37628; 37675; 37636; 37658];
  [37648; 37670; 37665; 37653; 37678; 37657; 38331; 38567; 38568; 38570; 38613; 38670; 38673; 38678; 38669; 38675; 38671; 38747; 38748; 38758; 38808; 38960; 38968; 38971; 38967; 38957; 38969; 38948; 39184; 39208; 39198; 39195; 39201; 39194; 39405; 39394; 39409; 39608; 39612; 39675; 39661; 39720; 39825; 40213; 40227; 40230; 40232; 40210; 40219; 40664; 40660; 40845; 40860; 20778; 20767; 20769; 20786; 21237; 22158; 22144; 22160; 22149; 22151; 22159; 22741; 22739; 22737; 22734; 23344; 23338; 23332; 23418; 23607; 23656; 23996; 23994; 23997; 23992; 24171; 24396; 24509; 25033; 25026; 25031; 25062; 25035; 25138; 25140; 25806; 25802; 25816; 25824; 25840; 25830; 25836; 25841; 25826; 25837; 25986; 25987; 26329; 26326; 27264; 27284; 27268; 27298; 27292; 27355; 27299; 27262; 27287; 27280; 27296; 27484; 27566; 27610; 27656; 28632; 28657; 28639; 28640; 28635; 28644; 28651; 28655; 28544; 28652; 28641; 28649; 28629; 28654; 28656; 29159; 29151; 29166; 29158; 29157; 29165; 29164; 29172; 29152; 29237; 29254; 29552; 29554; 29865; 29872; 29862; 29864; 30278; 30274; 30284; 30442; 30643; 30634; 30640; 30636];
  [30631; 30637; 30703; 30967; 30970; 30964; 30959; 30977; 31143; 31146; 31319; 31423; 31751; 31757; 31742; 31735; 31756; 31712; 31968; 31964; 31966; 31970; 31967; 31961; 31965; 32302; 32318; 32326; 32311; 32306; 32323; 32299; 32317; 32305; 32325; 32321; 32308; 32313; 32328; 32309; 32319; 32303; 32580; 32755; 32764; 32881; 32882; 32880; 32879; 32883; 33222; 33219; 33210; 33218; 33216; 33215; 33213; 33225; 33214; 33256; 33289; 33393; 34218; 34180; 34174; 34204; 34193; 34196; 34223; 34203; 34183; 34216; 34186; 34407; 34752; 34769; 34739; 34770; 34758; 34731; 34747; 34746; 34760; 34763; 35131; 35126; 35140; 35128; 35133; 35244; 35598; 35607; 35609; 35611; 35594; 35616; 35613; 35588; 35600; 35905; 35903; 35955; 36090; 36093; 36092; 36088; 36091; 36264; 36425; 36427; 36424; 36426; 36676; 36670; 36674; 36677; 36671; 36991; 36989; 36996; 36993; 36994; 36992; 37177; 37283; 37278; 37276; 37709; 37762; 37672; 37749; 37706; 37733; 37707; 37656; 37758; 37740; 37723; 37744; 37722; 37716; 38346; 38347; 38348; 38344; 38342; 38577; 38584; 38614; 38684; 38686; 38816; 38867; 38982; 39094; 39221; 39425];
  [39423; 39854; 39851; 39850; 39853; 40251; 40255; 40587; 40655; 40670; 40668; 40669; 40667; 40766; 40779; 21474; 22165; 22190; 22745; 22744; 23352; 24413; 25059; 25139; 25844; 25842; 25854; 25862; 25850; 25851; 25847; 26039; 26332; 26406; 27315; 27308; 27331; 27323; 27320; 27330; 27310; 27311; 27487; 27512; 27567; 28681; 28683; 28670; 28678; 28666; 28689; 28687; 29179; 29180; 29182; 29176; 29559; 29557; 29863; 29887; 29973; 30294; 30296; 30290; 30653; 30655; 30651; 30652; 30990; 31150; 31329; 31330; 31328; 31428; 31429; 31787; 31783; 31786; 31774; 31779; 31777; 31975; 32340; 32341; 32350; 32346; 32353; 32338; 32345; 32584; 32761; 32763; 32887; 32886; 33229; 33231; 33290; 34255; 34217; 34253; 34256; 34249; 34224; 34234; 34233; 34214; 34799; 34796; 34802; 34784; 35206; 35250; 35316; 35624; 35641; 35628; 35627; 35920; 36101; 36441; 36451; 36454; 36452; 36447; 36437; 36544; 36681; 36685; 36999; 36995; 37000; 37291; 37292; 37328; 37780; 37770; 37782; 37794; 37811; 37806; 37804; 37808; 37784; 37786; 37783; 38356; 38358; 38352; 38357; 38626; 38620; 38617; 38619; 38622; 38692; 38819; 38822];
  [38829; 38905; 38989; 38991; 38988; 38990; 38995; 39098; 39230; 39231; 39229; 39214; 39333; 39438; 39617; 39683; 39686; 39759; 39758; 39757; 39882; 39881; 39933; 39880; 39872; 40273; 40285; 40288; 40672; 40725; 40748; 20787; 22181; 22750; 22751; 22754; 23541; 40848; 24300; 25074; 25079; 25078; 25077; 25856; 25871; 26336; 26333; 27365; 27357; 27354; 27347; 28699; 28703; 28712; 28698; 28701; 28693; 28696; 29190; 29197; 29272; 29346; 29560; 29562; 29885; 29898; 29923; 30087; 30086; 30303; 30305; 30663; 31001; 31153; 31339; 31337; 31806; 31807; 31800; 31805; 31799; 31808; 32363; 32365; 32377; 32361; 32362; 32645; 32371; 32694; 32697; 32696; 33240; 34281; 34269; 34282; 34261; 34276; 34277; 34295; 34811; 34821; 34829; 34809; 34814; 35168; 35167; 35158; 35166; 35649; 35676; 35672; 35657; 35674; 35662; 35663; 35654; 35673; 36104; 36106; 36476; 36466; 36487; 36470; 36460; 36474; 36468; 36692; 36686; 36781; 37002; 37003; 37297; 37294; 37857; 37841; 37855; 37827; 37832; 37852; 37853; 37846; 37858; 37837; 37848; 37860; 37847; 37864; 38364; 38580; 38627; 38698; 38695; 38753; 38876; 38907; 39006];
  [39000; 39003; 39100; 39237; 39241; 39446; 39449; 39693; 39912; 39911; 39894; 39899; 40329; 40289; 40306; 40298; 40300; 40594; 40599; 40595; 40628; 21240; 22184; 22199; 22198; 22196; 22204; 22756; 23360; 23363; 23421; 23542; 24009; 25080; 25082; 25880; 25876; 25881; 26342; 26407; 27372; 28734; 28720; 28722; 29200; 29563; 29903; 30306; 30309; 31014; 31018; 31020; 31019; 31431; 31478; 31820; 31811; 31821; 31983; 31984; 36782; 32381; 32380; 32386; 32588; 32768; 33242; 33382; 34299; 34297; 34321; 34298; 34310; 34315; 34311; 34314; 34836; 34837; 35172; 35258; 35320; 35696; 35692; 35686; 35695; 35679; 35691; 36111; 36109; 36489; 36481; 36485; 36482; 37300; 37323; 37912; 37891; 37885; 38369; 38704; 39108; 39250; 39249; 39336; 39467; 39472; 39479; 39477; 39955; 39949; 40569; 40629; 40680; 40751; 40799; 40803; 40801; 20791; 20792; 22209; 22208; 22210; 22804; 23660; 24013; 25084; 25086; 25885; 25884; 26005; 26345; 27387; 27396; 27386; 27570; 28748; 29211; 29351; 29910; 29908; 30313; 30675; 31824; 32399; 32396; 32700; 34327; 34349; 34330; 34851; 34850; 34849; 34847; 35178; 35180; 35261; 35700];
  [35703; 35709; 36115; 36490; 36493; 36491; 36703; 36783; 37306; 37934; 37939; 37941; 37946; 37944; 37938; 37931; 38370; 38712; 38713; 38706; 38911; 39015; 39013; 39255; 39493; 39491; 39488; 39486; 39631; 39764; 39761; 39981; 39973; 40367; 40372; 40386; 40376; 40605; 40687; 40729; 40796; 40806; 40807; 20796; 20795; 22216; 22218; 22217; 23423; 24020; 24018; 24398; 25087; 25892; 27402; 27489; 28753; 28760; 29568; 29924; 30090; 30318; 30316; 31155; 31840; 31839; 32894; 32893; 33247; 35186; 35183; 35324; 35712; 36118; 36119; 36497; 36499; 36705; 37192; 37956; 37969; 37970; 38717; 38718; 38851; 38849; 39019; 39253; 39509; 39501; 39634; 39706; 40009; 39985; 39998; 39995; 40403; 40407; 40756; 40812; 40810; 40852; 22220; 24022; 25088; 25891; 25899; 25898; 26348; 27408; 29914; 31434; 31844; 31843; 31845; 32403; 32406; 32404; 33250; 34360; 34367; 34865; 35722; 37008; 37007; 37987; 37984; 37988; 38760; 39023; 39260; 39514; 39515; 39511; 39635; 39636; 39633; 40020; 40023; 40022; 40421; 40607; 40692; 22225; 22761; 25900; 28766; 30321; 30322; 30679; 32592; 32648; 34870; 34873; 34914; 35731; 35730];
  [35734; 33399; 36123; 37312; 37994; 38722; 38728; 38724; 38854; 39024; 39519; 39714; 39768; 40031; 40441; 40442; 40572; 40573; 40711; 40823; 40818; 24307; 27414; 28771; 31852; 31854; 34875; 35264; 36513; 37313; 38002; 38000; 39025; 39262; 39638; 39715; 40652; 28772; 30682; 35738; 38007; 38857; 39522; 39525; 32412; 35740; 36522; 37317; 38013; 38014; 38012; 40055; 40056; 40695; 35924; 38015; 40474; 29224; 39530; 39729; 40475; 40478; 31858; 9312; 9313; 9314; 9315; 9316; 9317; 9318; 9319; 9320; 9321; 9332; 9333; 9334; 9335; 9336; 9337; 9338; 9339; 9340; 9341; 8560; 8561; 8562; 8563; 8564; 8565; 8566; 8567; 8568; 8569; 20022; 20031; 20101; 20128; 20866; 20886; 20907; 21241; 21304; 21353; 21430; 22794; 23424; 24027; 12083; 24191; 24308; 24400; 24417; 25908; 26080; 30098; 30326; 36789; 38582; 168; 710; 12541; 12542; 12445; 12446; 12291; 20189; 12293; 12294; 12295; 12540; 65339; 65341; 10045; 12353; 12354; 12355; 12356; 12357; 12358; 12359; 12360; 12361; 12362; 12363; 12364; 12365; 12366; 12367; 12368; 12369; 12370; 12371; 12372; 12373; 12374; 12375; 12376];
  [12377; 12378; 12379; 12380; 12381; 12382; 12383; 12384; 12385; 12386; 12387; 12388; 12389; 12390; 12391; 12392; 12393; 12394; 12395; 12396; 12397; 12398; 12399; 12400; 12401; 12402; 12403; 12404; 12405; 12406; 12407; 12408; 12409; 12410; 12411; 12412; 12413; 12414; 12415; 12416; 12417; 12418; 12419; 12420; 12421; 12422; 12423; 12424; 12425; 12426; 12427; 12428; 12429; 12430; 12431; 12432; 12433; 12434; 12435; 12449; 12450; 12451; 12452; 12453; 12454; 12455; 12456; 12457; 12458; 12459; 12460; 12461; 12462; 12463; 12464; 12465; 12466; 12467; 12468; 12469; 12470; 12471; 12472; 12473; 12474; 12475; 12476; 12477; 12478; 12479; 12480; 12481; 12482; 12483; 12484; 12485; 12486; 12487; 12488; 12489; 12490; 12491; 12492; 12493; 12494; 12495; 12496; 12497; 12498; 12499; 12500; 12501; 12502; 12503; 12504; 12505; 12506; 12507; 12508; 12509; 12510; 12511; 12512; 12513; 12514; 12515; 12516; 12517; 12518; 12519; 12520; 12521; 12522; 12523; 12524; 12525; 12526; 12527; 12528; 12529; 12530; 12531; 12532; 12533; 12534; 1040; 1041; 1042; 1043; 1044; 1045; 1025; 1046; 1047; 1048; 1049; 1050];
  [1051; 1052; 1053; 1054; 1055; 1056; 1057; 1058; 1059; 1060; 1061; 1062; 1063; 1064; 1065; 1066; 1067; 1068; 1069; 1070; 1071; 1072; 1073; 1074; 1075; 1076; 1077; 1105; 1078; 1079; 1080; 1081; 1082; 1083; 1084; 1085; 1086; 1087; 1088; 1089; 1090; 1091; 1092; 1093; 1094; 1095; 1096; 1097; 1098; 1099; 1100; 1101; 1102; 1103; 8679; 8632; 8633; 12751; 131276; 20058; 131210; 20994; 17553; 40880; 20872; 40881; 161287; 4294967295; 4294967295; 4294967295; 4294967295; 4294967295; 4294967295; 4294967295; 4294967295; 4294967295; 4294967295; 4294967295; 4294967295; 4294967295; 4294967295; 4294967295; 4294967295; 4294967295; 4294967295; 4294967295; 4294967295; 4294967295; 4294967295; 4294967295; 4294967295; 4294967295; 4294967295; 4294967295; 4294967295; 4294967295; 4294967295; 4294967295; 4294967295; 4294967295; 4294967295; 4294967295; 4294967295; 4294967295; 4294967295; 4294967295; 4294967295; 65506; 65508; 65287; 65282; 12849; 8470; 8481; 12443; 12444; 11904; 11908; 11910; 11911; 11912; 11914; 11916; 11917; 11925; 11932; 11933; 11941; 11943; 11946; 11948; 11950; 11958; 11964; 11966; 11974; 11978; 11980; 11981; 11983; 11990; 11991; 11998; 12003; 4294967295; 4294967295; 4294967295; 643; 592; 603; 596; 629; 339; 248; 331; 650; 618];
  [20034; 20060; 20981; 21274; 21378; 19975; 19980; 20039; 20109; 22231; 64012; 23662; 24435; 19983; 20871; 19982; 20014; 20115; 20162; 20169; 20168; 20888; 21244; 21356; 21433; 22304; 22787; 22828; 23568; 24063; 26081; 27571; 27596; 27668; 29247; 20017; 20028; 20200; 20188; 20201; 20193; 20189; 20186; 21004; 21276; 21324; 22306; 22307; 22807; 22831; 23425; 23428; 23570; 23611; 23668; 23667; 24068; 24192; 24194; 24521; 25097; 25168; 27669; 27702; 27715; 27711; 27707; 29358; 29360; 29578; 31160; 32906; 38430; 20238; 20248; 20268; 20213; 20244; 20209; 20224; 20215; 20232; 20253; 20226; 20229; 20258; 20243; 20228; 20212; 20242; 20913; 21011; 21001; 21008; 21158; 21282; 21279; 21325; 21386; 21511; 22241; 22239; 22318; 22314; 22324; 22844; 22912; 22908; 22917; 22907; 22910; 22903; 22911; 23382; 23573; 23589; 23676; 23674; 23675; 23678; 24031; 24181; 24196; 24322; 24346; 24436; 24533; 24532; 24527; 25180; 25182; 25188; 25185; 25190; 25186; 25177; 25184; 25178; 25189; 26095; 26094; 26430; 26425; 26424; 26427; 26426; 26431; 26428; 26419; 27672; 27718; 27730; 27740; 27727; 27722; 27732; 27723];
  [27724; 28785; 29278; 29364; 29365; 29582; 29994; 30335; 31349; 32593; 33400; 33404; 33408; 33405; 33407; 34381; 35198; 37017; 37015; 37016; 37019; 37012; 38434; 38436; 38432; 38435; 20310; 20283; 20322; 20297; 20307; 20324; 20286; 20327; 20306; 20319; 20289; 20312; 20269; 20275; 20287; 20321; 20879; 20921; 21020; 21022; 21025; 21165; 21166; 21257; 21347; 21362; 21390; 21391; 21552; 21559; 21546; 21588; 21573; 21529; 21532; 21541; 21528; 21565; 21583; 21569; 21544; 21540; 21575; 22254; 22247; 22245; 22337; 22341; 22348; 22345; 22347; 22354; 22790; 22848; 22950; 22936; 22944; 22935; 22926; 22946; 22928; 22927; 22951; 22945; 23438; 23442; 23592; 23594; 23693; 23695; 23688; 23691; 23689; 23698; 23690; 23686; 23699; 23701; 24032; 24074; 24078; 24203; 24201; 24204; 24200; 24205; 24325; 24349; 24440; 24438; 24530; 24529; 24528; 24557; 24552; 24558; 24563; 24545; 24548; 24547; 24570; 24559; 24567; 24571; 24576; 24564; 25146; 25219; 25228; 25230; 25231; 25236; 25223; 25201; 25211; 25210; 25200; 25217; 25224; 25207; 25213; 25202; 25204; 25911; 26096; 26100; 26099; 26098; 26101; 26437; 26439];
  [26457; 26453; 26444; 26440; 26461; 26445; 26458; 26443; 27600; 27673; 27674; 27768; 27751; 27755; 27780; 27787; 27791; 27761; 27759; 27753; 27802; 27757; 27783; 27797; 27804; 27750; 27763; 27749; 27771; 27790; 28788; 28794; 29283; 29375; 29373; 29379; 29382; 29377; 29370; 29381; 29589; 29591; 29587; 29588; 29586; 30010; 30009; 30100; 30101; 30337; 31037; 32820; 32917; 32921; 32912; 32914; 32924; 33424; 33423; 33413; 33422; 33425; 33427; 33418; 33411; 33412; 35960; 36809; 36799; 37023; 37025; 37029; 37022; 37031; 37024; 38448; 38440; 38447; 38445; 20019; 20376; 20348; 20357; 20349; 20352; 20359; 20342; 20340; 20361; 20356; 20343; 20300; 20375; 20330; 20378; 20345; 20353; 20344; 20368; 20380; 20372; 20382; 20370; 20354; 20373; 20331; 20334; 20894; 20924; 20926; 21045; 21042; 21043; 21062; 21041; 21180; 21258; 21259; 21308; 21394; 21396; 21639; 21631; 21633; 21649; 21634; 21640; 21611; 21626; 21630; 21605; 21612; 21620; 21606; 21645; 21615; 21601; 21600; 21656; 21603; 21607; 21604; 22263; 22265; 22383; 22386; 22381; 22379; 22385; 22384; 22390; 22400; 22389; 22395; 22387; 22388; 22370];
  [22376; 22397; 22796; 22853; 22965; 22970; 22991; 22990; 22962; 22988; 22977; 22966; 22972; 22979; 22998; 22961; 22973; 22976; 22984; 22964; 22983; 23394; 23397; 23443; 23445; 23620; 23623; 23726; 23716; 23712; 23733; 23727; 23720; 23724; 23711; 23715; 23725; 23714; 23722; 23719; 23709; 23717; 23734; 23728; 23718; 24087; 24084; 24089; 24360; 24354; 24355; 24356; 24404; 24450; 24446; 24445; 24542; 24549; 24621; 24614; 24601; 24626; 24587; 24628; 24586; 24599; 24627; 24602; 24606; 24620; 24610; 24589; 24592; 24622; 24595; 24593; 24588; 24585; 24604; 25108; 25149; 25261; 25268; 25297; 25278; 25258; 25270; 25290; 25262; 25267; 25263; 25275; 25257; 25264; 25272; 25917; 26024; 26043; 26121; 26108; 26116; 26130; 26120; 26107; 26115; 26123; 26125; 26117; 26109; 26129; 26128; 26358; 26378; 26501; 26476; 26510; 26514; 26486; 26491; 26520; 26502; 26500; 26484; 26509; 26508; 26490; 26527; 26513; 26521; 26499; 26493; 26497; 26488; 26489; 26516; 27429; 27520; 27518; 27614; 27677; 27795; 27884; 27883; 27886; 27865; 27830; 27860; 27821; 27879; 27831; 27856; 27842; 27834; 27843; 27846; 27885; 27890];
  [27858; 27869; 27828; 27786; 27805; 27776; 27870; 27840; 27952; 27853; 27847; 27824; 27897; 27855; 27881; 27857; 28820; 28824; 28805; 28819; 28806; 28804; 28817; 28822; 28802; 28826; 28803; 29290; 29398; 29387; 29400; 29385; 29404; 29394; 29396; 29402; 29388; 29393; 29604; 29601; 29613; 29606; 29602; 29600; 29612; 29597; 29917; 29928; 30015; 30016; 30014; 30092; 30104; 30383; 30451; 30449; 30448; 30453; 30712; 30716; 30713; 30715; 30714; 30711; 31042; 31039; 31173; 31352; 31355; 31483; 31861; 31997; 32821; 32911; 32942; 32931; 32952; 32949; 32941; 33312; 33440; 33472; 33451; 33434; 33432; 33435; 33461; 33447; 33454; 33468; 33438; 33466; 33460; 33448; 33441; 33449; 33474; 33444; 33475; 33462; 33442; 34416; 34415; 34413; 34414; 35926; 36818; 36811; 36819; 36813; 36822; 36821; 36823; 37042; 37044; 37039; 37043; 37040; 38457; 38461; 38460; 38458; 38467; 20429; 20421; 20435; 20402; 20425; 20427; 20417; 20436; 20444; 20441; 20411; 20403; 20443; 20423; 20438; 20410; 20416; 20409; 20460; 21060; 21065; 21184; 21186; 21309; 21372; 21399; 21398; 21401; 21400; 21690; 21665; 21677; 21669; 21711];
  [21699; 33549; 21687; 21678; 21718; 21686; 21701; 21702; 21664; 21616; 21692; 21666; 21694; 21618; 21726; 21680; 22453; 22430; 22431; 22436; 22412; 22423; 22429; 22427; 22420; 22424; 22415; 22425; 22437; 22426; 22421; 22772; 22797; 22867; 23009; 23006; 23022; 23040; 23025; 23005; 23034; 23037; 23036; 23030; 23012; 23026; 23031; 23003; 23017; 23027; 23029; 23008; 23038; 23028; 23021; 23464; 23628; 23760; 23768; 23756; 23767; 23755; 23771; 23774; 23770; 23753; 23751; 23754; 23766; 23763; 23764; 23759; 23752; 23750; 23758; 23775; 23800; 24057; 24097; 24098; 24099; 24096; 24100; 24240; 24228; 24226; 24219; 24227; 24229; 24327; 24366; 24406; 24454; 24631; 24633; 24660; 24690; 24670; 24645; 24659; 24647; 24649; 24667; 24652; 24640; 24642; 24671; 24612; 24644; 24664; 24678; 24686; 25154; 25155; 25295; 25357; 25355; 25333; 25358; 25347; 25323; 25337; 25359; 25356; 25336; 25334; 25344; 25363; 25364; 25338; 25365; 25339; 25328; 25921; 25923; 26026; 26047; 26166; 26145; 26162; 26165; 26140; 26150; 26146; 26163; 26155; 26170; 26141; 26164; 26169; 26158; 26383; 26384; 26561; 26610; 26568; 26554];
  [26588; 26555; 26616; 26584; 26560; 26551; 26565; 26603; 26596; 26591; 26549; 26573; 26547; 26615; 26614; 26606; 26595; 26562; 26553; 26574; 26599; 26608; 26546; 26620; 26566; 26605; 26572; 26542; 26598; 26587; 26618; 26569; 26570; 26563; 26602; 26571; 27432; 27522; 27524; 27574; 27606; 27608; 27616; 27680; 27681; 27944; 27956; 27949; 27935; 27964; 27967; 27922; 27914; 27866; 27955; 27908; 27929; 27962; 27930; 27921; 27904; 27933; 27970; 27905; 27928; 27959; 27907; 27919; 27968; 27911; 27936; 27948; 27912; 27938; 27913; 27920; 28855; 28831; 28862; 28849; 28848; 28833; 28852; 28853; 28841; 29249; 29257; 29258; 29292; 29296; 29299; 29294; 29386; 29412; 29416; 29419; 29407; 29418; 29414; 29411; 29573; 29644; 29634; 29640; 29637; 29625; 29622; 29621; 29620; 29675; 29631; 29639; 29630; 29635; 29638; 29624; 29643; 29932; 29934; 29998; 30023; 30024; 30119; 30122; 30329; 30404; 30472; 30467; 30468; 30469; 30474; 30455; 30459; 30458; 30695; 30696; 30726; 30737; 30738; 30725; 30736; 30735; 30734; 30729; 30723; 30739; 31050; 31052; 31051; 31045; 31044; 31189; 31181; 31183; 31190; 31182; 31360];
  [31358; 31441; 31488; 31489; 31866; 31864; 31865; 31871; 31872; 31873; 32003; 32008; 32001; 32600; 32657; 32653; 32702; 32775; 32782; 32783; 32788; 32823; 32984; 32967; 32992; 32977; 32968; 32962; 32976; 32965; 32995; 32985; 32988; 32970; 32981; 32969; 32975; 32983; 32998; 32973; 33279; 33313; 33428; 33497; 33534; 33529; 33543; 33512; 33536; 33493; 33594; 33515; 33494; 33524; 33516; 33505; 33522; 33525; 33548; 33531; 33526; 33520; 33514; 33508; 33504; 33530; 33523; 33517; 34423; 34420; 34428; 34419; 34881; 34894; 34919; 34922; 34921; 35283; 35332; 35335; 36210; 36835; 36833; 36846; 36832; 37105; 37053; 37055; 37077; 37061; 37054; 37063; 37067; 37064; 37332; 37331; 38484; 38479; 38481; 38483; 38474; 38478; 20510; 20485; 20487; 20499; 20514; 20528; 20507; 20469; 20468; 20531; 20535; 20524; 20470; 20471; 20503; 20508; 20512; 20519; 20533; 20527; 20529; 20494; 20826; 20884; 20883; 20938; 20932; 20933; 20936; 20942; 21089; 21082; 21074; 21086; 21087; 21077; 21090; 21197; 21262; 21406; 21798; 21730; 21783; 21778; 21735; 21747; 21732; 21786; 21759; 21764; 21768; 21739; 21777; 21765; 21745];
  [21770; 21755; 21751; 21752; 21728; 21774; 21763; 21771; 22273; 22274; 22476; 22578; 22485; 22482; 22458; 22470; 22461; 22460; 22456; 22454; 22463; 22471; 22480; 22457; 22465; 22798; 22858; 23065; 23062; 23085; 23086; 23061; 23055; 23063; 23050; 23070; 23091; 23404; 23463; 23469; 23468; 23555; 23638; 23636; 23788; 23807; 23790; 23793; 23799; 23808; 23801; 24105; 24104; 24232; 24238; 24234; 24236; 24371; 24368; 24423; 24669; 24666; 24679; 24641; 24738; 24712; 24704; 24722; 24705; 24733; 24707; 24725; 24731; 24727; 24711; 24732; 24718; 25113; 25158; 25330; 25360; 25430; 25388; 25412; 25413; 25398; 25411; 25572; 25401; 25419; 25418; 25404; 25385; 25409; 25396; 25432; 25428; 25433; 25389; 25415; 25395; 25434; 25425; 25400; 25431; 25408; 25416; 25930; 25926; 26054; 26051; 26052; 26050; 26186; 26207; 26183; 26193; 26386; 26387; 26655; 26650; 26697; 26674; 26675; 26683; 26699; 26703; 26646; 26673; 26652; 26677; 26667; 26669; 26671; 26702; 26692; 26676; 26653; 26642; 26644; 26662; 26664; 26670; 26701; 26682; 26661; 26656; 27436; 27439; 27437; 27441; 27444; 27501; 32898; 27528; 27622; 27620];
  [27624; 27619; 27618; 27623; 27685; 28026; 28003; 28004; 28022; 27917; 28001; 28050; 27992; 28002; 28013; 28015; 28049; 28045; 28143; 28031; 28038; 27998; 28007; 28000; 28055; 28016; 28028; 27999; 28034; 28056; 27951; 28008; 28043; 28030; 28032; 28036; 27926; 28035; 28027; 28029; 28021; 28048; 28892; 28883; 28881; 28893; 28875; 32569; 28898; 28887; 28882; 28894; 28896; 28884; 28877; 28869; 28870; 28871; 28890; 28878; 28897; 29250; 29304; 29303; 29302; 29440; 29434; 29428; 29438; 29430; 29427; 29435; 29441; 29651; 29657; 29669; 29654; 29628; 29671; 29667; 29673; 29660; 29650; 29659; 29652; 29661; 29658; 29655; 29656; 29672; 29918; 29919; 29940; 29941; 29985; 30043; 30047; 30128; 30145; 30139; 30148; 30144; 30143; 30134; 30138; 30346; 30409; 30493; 30491; 30480; 30483; 30482; 30499; 30481; 30485; 30489; 30490; 30498; 30503; 30755; 30764; 30754; 30773; 30767; 30760; 30766; 30763; 30753; 30761; 30771; 30762; 30769; 31060; 31067; 31055; 31068; 31059; 31058; 31057; 31211; 31212; 31200; 31214; 31213; 31210; 31196; 31198; 31197; 31366; 31369; 31365; 31371; 31372; 31370; 31367; 31448; 31504];
  [31492; 31507; 31493; 31503; 31496; 31498; 31502; 31497; 31506; 31876; 31889; 31882; 31884; 31880; 31885; 31877; 32030; 32029; 32017; 32014; 32024; 32022; 32019; 32031; 32018; 32015; 32012; 32604; 32609; 32606; 32608; 32605; 32603; 32662; 32658; 32707; 32706; 32704; 32790; 32830; 32825; 33018; 33010; 33017; 33013; 33025; 33019; 33024; 33281; 33327; 33317; 33587; 33581; 33604; 33561; 33617; 33573; 33622; 33599; 33601; 33574; 33564; 33570; 33602; 33614; 33563; 33578; 33544; 33596; 33613; 33558; 33572; 33568; 33591; 33583; 33577; 33607; 33605; 33612; 33619; 33566; 33580; 33611; 33575; 33608; 34387; 34386; 34466; 34472; 34454; 34445; 34449; 34462; 34439; 34455; 34438; 34443; 34458; 34437; 34469; 34457; 34465; 34471; 34453; 34456; 34446; 34461; 34448; 34452; 34883; 34884; 34925; 34933; 34934; 34930; 34944; 34929; 34943; 34927; 34947; 34942; 34932; 34940; 35346; 35911; 35927; 35963; 36004; 36003; 36214; 36216; 36277; 36279; 36278; 36561; 36563; 36862; 36853; 36866; 36863; 36859; 36868; 36860; 36854; 37078; 37088; 37081; 37082; 37091; 37087; 37093; 37080; 37083; 37079; 37084; 37092; 37200];
  [37198; 37199; 37333; 37346; 37338; 38492; 38495; 38588; 39139; 39647; 39727; 20095; 20592; 20586; 20577; 20574; 20576; 20563; 20555; 20573; 20594; 20552; 20557; 20545; 20571; 20554; 20578; 20501; 20549; 20575; 20585; 20587; 20579; 20580; 20550; 20544; 20590; 20595; 20567; 20561; 20944; 21099; 21101; 21100; 21102; 21206; 21203; 21293; 21404; 21877; 21878; 21820; 21837; 21840; 21812; 21802; 21841; 21858; 21814; 21813; 21808; 21842; 21829; 21772; 21810; 21861; 21838; 21817; 21832; 21805; 21819; 21824; 21835; 22282; 22279; 22523; 22548; 22498; 22518; 22492; 22516; 22528; 22509; 22525; 22536; 22520; 22539; 22515; 22479; 22535; 22510; 22499; 22514; 22501; 22508; 22497; 22542; 22524; 22544; 22503; 22529; 22540; 22513; 22505; 22512; 22541; 22532; 22876; 23136; 23128; 23125; 23143; 23134; 23096; 23093; 23149; 23120; 23135; 23141; 23148; 23123; 23140; 23127; 23107; 23133; 23122; 23108; 23131; 23112; 23182; 23102; 23117; 23097; 23116; 23152; 23145; 23111; 23121; 23126; 23106; 23132; 23410; 23406; 23489; 23488; 23641; 23838; 23819; 23837; 23834; 23840; 23820; 23848; 23821; 23846; 23845; 23823];
  [23856; 23826; 23843; 23839; 23854; 24126; 24116; 24241; 24244; 24249; 24242; 24243; 24374; 24376; 24475; 24470; 24479; 24714; 24720; 24710; 24766; 24752; 24762; 24787; 24788; 24783; 24804; 24793; 24797; 24776; 24753; 24795; 24759; 24778; 24767; 24771; 24781; 24768; 25394; 25445; 25482; 25474; 25469; 25533; 25502; 25517; 25501; 25495; 25515; 25486; 25455; 25479; 25488; 25454; 25519; 25461; 25500; 25453; 25518; 25468; 25508; 25403; 25503; 25464; 25477; 25473; 25489; 25485; 25456; 25939; 26061; 26213; 26209; 26203; 26201; 26204; 26210; 26392; 26745; 26759; 26768; 26780; 26733; 26734; 26798; 26795; 26966; 26735; 26787; 26796; 26793; 26741; 26740; 26802; 26767; 26743; 26770; 26748; 26731; 26738; 26794; 26752; 26737; 26750; 26779; 26774; 26763; 26784; 26761; 26788; 26744; 26747; 26769; 26764; 26762; 26749; 27446; 27443; 27447; 27448; 27537; 27535; 27533; 27534; 27532; 27690; 28096; 28075; 28084; 28083; 28276; 28076; 28137; 28130; 28087; 28150; 28116; 28160; 28104; 28128; 28127; 28118; 28094; 28133; 28124; 28125; 28123; 28148; 28106; 28093; 28141; 28144; 28090; 28117; 28098; 28111; 28105];
  [28112; 28146; 28115; 28157; 28119; 28109; 28131; 28091; 28922; 28941; 28919; 28951; 28916; 28940; 28912; 28932; 28915; 28944; 28924; 28927; 28934; 28947; 28928; 28920; 28918; 28939; 28930; 28942; 29310; 29307; 29308; 29311; 29469; 29463; 29447; 29457; 29464; 29450; 29448; 29439; 29455; 29470; 29576; 29686; 29688; 29685; 29700; 29697; 29693; 29703; 29696; 29690; 29692; 29695; 29708; 29707; 29684; 29704; 30052; 30051; 30158; 30162; 30159; 30155; 30156; 30161; 30160; 30351; 30345; 30419; 30521; 30511; 30509; 30513; 30514; 30516; 30515; 30525; 30501; 30523; 30517; 30792; 30802; 30793; 30797; 30794; 30796; 30758; 30789; 30800; 31076; 31079; 31081; 31082; 31075; 31083; 31073; 31163; 31226; 31224; 31222; 31223; 31375; 31380; 31376; 31541; 31559; 31540; 31525; 31536; 31522; 31524; 31539; 31512; 31530; 31517; 31537; 31531; 31533; 31535; 31538; 31544; 31514; 31523; 31892; 31896; 31894; 31907; 32053; 32061; 32056; 32054; 32058; 32069; 32044; 32041; 32065; 32071; 32062; 32063; 32074; 32059; 32040; 32611; 32661; 32668; 32669; 32667; 32714; 32715; 32717; 32720; 32721; 32711; 32719; 32713; 32799];
  [32798; 32795; 32839; 32835; 32840; 33048; 33061; 33049; 33051; 33069; 33055; 33068; 33054; 33057; 33045; 33063; 33053; 33058; 33297; 33336; 33331; 33338; 33332; 33330; 33396; 33680; 33699; 33704; 33677; 33658; 33651; 33700; 33652; 33679; 33665; 33685; 33689; 33653; 33684; 33705; 33661; 33667; 33676; 33693; 33691; 33706; 33675; 33662; 33701; 33711; 33672; 33687; 33712; 33663; 33702; 33671; 33710; 33654; 33690; 34393; 34390; 34495; 34487; 34498; 34497; 34501; 34490; 34480; 34504; 34489; 34483; 34488; 34508; 34484; 34491; 34492; 34499; 34493; 34494; 34898; 34953; 34965; 34984; 34978; 34986; 34970; 34961; 34977; 34975; 34968; 34983; 34969; 34971; 34967; 34980; 34988; 34956; 34963; 34958; 35202; 35286; 35289; 35285; 35376; 35367; 35372; 35358; 35897; 35899; 35932; 35933; 35965; 36005; 36221; 36219; 36217; 36284; 36290; 36281; 36287; 36289; 36568; 36574; 36573; 36572; 36567; 36576; 36577; 36900; 36875; 36881; 36892; 36876; 36897; 37103; 37098; 37104; 37108; 37106; 37107; 37076; 37099; 37100; 37097; 37206; 37208; 37210; 37203; 37205; 37356; 37364; 37361; 37363; 37368; 37348; 37369; 37354];
  [37355; 37367; 37352; 37358; 38266; 38278; 38280; 38524; 38509; 38507; 38513; 38511; 38591; 38762; 38916; 39141; 39319; 20635; 20629; 20628; 20638; 20619; 20643; 20611; 20620; 20622; 20637; 20584; 20636; 20626; 20610; 20615; 20831; 20948; 21266; 21265; 21412; 21415; 21905; 21928; 21925; 21933; 21879; 22085; 21922; 21907; 21896; 21903; 21941; 21889; 21923; 21906; 21924; 21885; 21900; 21926; 21887; 21909; 21921; 21902; 22284; 22569; 22583; 22553; 22558; 22567; 22563; 22568; 22517; 22600; 22565; 22556; 22555; 22579; 22591; 22582; 22574; 22585; 22584; 22573; 22572; 22587; 22881; 23215; 23188; 23199; 23162; 23202; 23198; 23160; 23206; 23164; 23205; 23212; 23189; 23214; 23095; 23172; 23178; 23191; 23171; 23179; 23209; 23163; 23165; 23180; 23196; 23183; 23187; 23197; 23530; 23501; 23499; 23508; 23505; 23498; 23502; 23564; 23600; 23863; 23875; 23915; 23873; 23883; 23871; 23861; 23889; 23886; 23893; 23859; 23866; 23890; 23869; 23857; 23897; 23874; 23865; 23881; 23864; 23868; 23858; 23862; 23872; 23877; 24132; 24129; 24408; 24486; 24485; 24491; 24777; 24761; 24780; 24802; 24782; 24772; 24852];
  [24818; 24842; 24854; 24837; 24821; 24851; 24824; 24828; 24830; 24769; 24835; 24856; 24861; 24848; 24831; 24836; 24843; 25162; 25492; 25521; 25520; 25550; 25573; 25576; 25583; 25539; 25757; 25587; 25546; 25568; 25590; 25557; 25586; 25589; 25697; 25567; 25534; 25565; 25564; 25540; 25560; 25555; 25538; 25543; 25548; 25547; 25544; 25584; 25559; 25561; 25906; 25959; 25962; 25956; 25948; 25960; 25957; 25996; 26013; 26014; 26030; 26064; 26066; 26236; 26220; 26235; 26240; 26225; 26233; 26218; 26226; 26369; 26892; 26835; 26884; 26844; 26922; 26860; 26858; 26865; 26895; 26838; 26871; 26859; 26852; 26870; 26899; 26896; 26867; 26849; 26887; 26828; 26888; 26992; 26804; 26897; 26863; 26822; 26900; 26872; 26832; 26877; 26876; 26856; 26891; 26890; 26903; 26830; 26824; 26845; 26846; 26854; 26868; 26833; 26886; 26836; 26857; 26901; 26917; 26823; 27449; 27451; 27455; 27452; 27540; 27543; 27545; 27541; 27581; 27632; 27634; 27635; 27696; 28156; 28230; 28231; 28191; 28233; 28296; 28220; 28221; 28229; 28258; 28203; 28223; 28225; 28253; 28275; 28188; 28211; 28235; 28224; 28241; 28219; 28163; 28206; 28254];
  [28264; 28252; 28257; 28209; 28200; 28256; 28273; 28267; 28217; 28194; 28208; 28243; 28261; 28199; 28280; 28260; 28279; 28245; 28281; 28242; 28262; 28213; 28214; 28250; 28960; 28958; 28975; 28923; 28974; 28977; 28963; 28965; 28962; 28978; 28959; 28968; 28986; 28955; 29259; 29274; 29320; 29321; 29318; 29317; 29323; 29458; 29451; 29488; 29474; 29489; 29491; 29479; 29490; 29485; 29478; 29475; 29493; 29452; 29742; 29740; 29744; 29739; 29718; 29722; 29729; 29741; 29745; 29732; 29731; 29725; 29737; 29728; 29746; 29947; 29999; 30063; 30060; 30183; 30170; 30177; 30182; 30173; 30175; 30180; 30167; 30357; 30354; 30426; 30534; 30535; 30532; 30541; 30533; 30538; 30542; 30539; 30540; 30686; 30700; 30816; 30820; 30821; 30812; 30829; 30833; 30826; 30830; 30832; 30825; 30824; 30814; 30818; 31092; 31091; 31090; 31088; 31234; 31242; 31235; 31244; 31236; 31385; 31462; 31460; 31562; 31547; 31556; 31560; 31564; 31566; 31552; 31576; 31557; 31906; 31902; 31912; 31905; 32088; 32111; 32099; 32083; 32086; 32103; 32106; 32079; 32109; 32092; 32107; 32082; 32084; 32105; 32081; 32095; 32078; 32574; 32575; 32613];
  [32614; 32674; 32672; 32673; 32727; 32849; 32847; 32848; 33022; 32980; 33091; 33098; 33106; 33103; 33095; 33085; 33101; 33082; 33254; 33262; 33271; 33272; 33273; 33284; 33340; 33341; 33343; 33397; 33595; 33743; 33785; 33827; 33728; 33768; 33810; 33767; 33764; 33788; 33782; 33808; 33734; 33736; 33771; 33763; 33727; 33793; 33757; 33765; 33752; 33791; 33761; 33739; 33742; 33750; 33781; 33737; 33801; 33807; 33758; 33809; 33798; 33730; 33779; 33749; 33786; 33735; 33745; 33770; 33811; 33731; 33772; 33774; 33732; 33787; 33751; 33762; 33819; 33755; 33790; 34520; 34530; 34534; 34515; 34531; 34522; 34538; 34525; 34539; 34524; 34540; 34537; 34519; 34536; 34513; 34888; 34902; 34901; 35002; 35031; 35001; 35000; 35008; 35006; 34998; 35004; 34999; 35005; 34994; 35073; 35017; 35221; 35224; 35223; 35293; 35290; 35291; 35406; 35405; 35385; 35417; 35392; 35415; 35416; 35396; 35397; 35410; 35400; 35409; 35402; 35404; 35407; 35935; 35969; 35968; 36026; 36030; 36016; 36025; 36021; 36228; 36224; 36233; 36312; 36307; 36301; 36295; 36310; 36316; 36303; 36309; 36313; 36296; 36311; 36293; 36591; 36599; 36602];
  [36601; 36582; 36590; 36581; 36597; 36583; 36584; 36598; 36587; 36593; 36588; 36596; 36585; 36909; 36916; 36911; 37126; 37164; 37124; 37119; 37116; 37128; 37113; 37115; 37121; 37120; 37127; 37125; 37123; 37217; 37220; 37215; 37218; 37216; 37377; 37386; 37413; 37379; 37402; 37414; 37391; 37388; 37376; 37394; 37375; 37373; 37382; 37380; 37415; 37378; 37404; 37412; 37401; 37399; 37381; 37398; 38267; 38285; 38284; 38288; 38535; 38526; 38536; 38537; 38531; 38528; 38594; 38600; 38595; 38641; 38640; 38764; 38768; 38766; 38919; 39081; 39147; 40166; 40697; 20099; 20100; 20150; 20669; 20671; 20678; 20654; 20676; 20682; 20660; 20680; 20674; 20656; 20673; 20666; 20657; 20683; 20681; 20662; 20664; 20951; 21114; 21112; 21115; 21116; 21955; 21979; 21964; 21968; 21963; 21962; 21981; 21952; 21972; 21956; 21993; 21951; 21970; 21901; 21967; 21973; 21986; 21974; 21960; 22002; 21965; 21977; 21954; 22292; 22611; 22632; 22628; 22607; 22605; 22601; 22639; 22613; 22606; 22621; 22617; 22629; 22619; 22589; 22627; 22641; 22780; 23239; 23236; 23243; 23226; 23224; 23217; 23221; 23216; 23231; 23240; 23227; 23238];
  [23223; 23232; 23242; 23220; 23222; 23245; 23225; 23184; 23510; 23512; 23513; 23583; 23603; 23921; 23907; 23882; 23909; 23922; 23916; 23902; 23912; 23911; 23906; 24048; 24143; 24142; 24138; 24141; 24139; 24261; 24268; 24262; 24267; 24263; 24384; 24495; 24493; 24823; 24905; 24906; 24875; 24901; 24886; 24882; 24878; 24902; 24879; 24911; 24873; 24896; 25120; 37224; 25123; 25125; 25124; 25541; 25585; 25579; 25616; 25618; 25609; 25632; 25636; 25651; 25667; 25631; 25621; 25624; 25657; 25655; 25634; 25635; 25612; 25638; 25648; 25640; 25665; 25653; 25647; 25610; 25626; 25664; 25637; 25639; 25611; 25575; 25627; 25646; 25633; 25614; 25967; 26002; 26067; 26246; 26252; 26261; 26256; 26251; 26250; 26265; 26260; 26232; 26400; 26982; 26975; 26936; 26958; 26978; 26993; 26943; 26949; 26986; 26937; 26946; 26967; 26969; 27002; 26952; 26953; 26933; 26988; 26931; 26941; 26981; 26864; 27000; 26932; 26985; 26944; 26991; 26948; 26998; 26968; 26945; 26996; 26956; 26939; 26955; 26935; 26972; 26959; 26961; 26930; 26962; 26927; 27003; 26940; 27462; 27461; 27459; 27458; 27464; 27457; 27547; 64013; 27643; 27644];
  [27641; 27639; 27640; 28315; 28374; 28360; 28303; 28352; 28319; 28307; 28308; 28320; 28337; 28345; 28358; 28370; 28349; 28353; 28318; 28361; 28343; 28336; 28365; 28326; 28367; 28338; 28350; 28355; 28380; 28376; 28313; 28306; 28302; 28301; 28324; 28321; 28351; 28339; 28368; 28362; 28311; 28334; 28323; 28999; 29012; 29010; 29027; 29024; 28993; 29021; 29026; 29042; 29048; 29034; 29025; 28994; 29016; 28995; 29003; 29040; 29023; 29008; 29011; 28996; 29005; 29018; 29263; 29325; 29324; 29329; 29328; 29326; 29500; 29506; 29499; 29498; 29504; 29514; 29513; 29764; 29770; 29771; 29778; 29777; 29783; 29760; 29775; 29776; 29774; 29762; 29766; 29773; 29780; 29921; 29951; 29950; 29949; 29981; 30073; 30071; 27011; 30191; 30223; 30211; 30199; 30206; 30204; 30201; 30200; 30224; 30203; 30198; 30189; 30197; 30205; 30361; 30389; 30429; 30549; 30559; 30560; 30546; 30550; 30554; 30569; 30567; 30548; 30553; 30573; 30688; 30855; 30874; 30868; 30863; 30852; 30869; 30853; 30854; 30881; 30851; 30841; 30873; 30848; 30870; 30843; 31100; 31106; 31101; 31097; 31249; 31256; 31257; 31250; 31255; 31253; 31266; 31251];
  [31259; 31248; 31395; 31394; 31390; 31467; 31590; 31588; 31597; 31604; 31593; 31602; 31589; 31603; 31601; 31600; 31585; 31608; 31606; 31587; 31922; 31924; 31919; 32136; 32134; 32128; 32141; 32127; 32133; 32122; 32142; 32123; 32131; 32124; 32140; 32148; 32132; 32125; 32146; 32621; 32619; 32615; 32616; 32620; 32678; 32677; 32679; 32731; 32732; 32801; 33124; 33120; 33143; 33116; 33129; 33115; 33122; 33138; 26401; 33118; 33142; 33127; 33135; 33092; 33121; 33309; 33353; 33348; 33344; 33346; 33349; 34033; 33855; 33878; 33910; 33913; 33935; 33933; 33893; 33873; 33856; 33926; 33895; 33840; 33869; 33917; 33882; 33881; 33908; 33907; 33885; 34055; 33886; 33847; 33850; 33844; 33914; 33859; 33912; 33842; 33861; 33833; 33753; 33867; 33839; 33858; 33837; 33887; 33904; 33849; 33870; 33868; 33874; 33903; 33989; 33934; 33851; 33863; 33846; 33843; 33896; 33918; 33860; 33835; 33888; 33876; 33902; 33872; 34571; 34564; 34551; 34572; 34554; 34518; 34549; 34637; 34552; 34574; 34569; 34561; 34550; 34573; 34565; 35030; 35019; 35021; 35022; 35038; 35035; 35034; 35020; 35024; 35205; 35227; 35295; 35301; 35300];
  [35297; 35296; 35298; 35292; 35302; 35446; 35462; 35455; 35425; 35391; 35447; 35458; 35460; 35445; 35459; 35457; 35444; 35450; 35900; 35915; 35914; 35941; 35940; 35942; 35974; 35972; 35973; 36044; 36200; 36201; 36241; 36236; 36238; 36239; 36237; 36243; 36244; 36240; 36242; 36336; 36320; 36332; 36337; 36334; 36304; 36329; 36323; 36322; 36327; 36338; 36331; 36340; 36614; 36607; 36609; 36608; 36613; 36615; 36616; 36610; 36619; 36946; 36927; 36932; 36937; 36925; 37136; 37133; 37135; 37137; 37142; 37140; 37131; 37134; 37230; 37231; 37448; 37458; 37424; 37434; 37478; 37427; 37477; 37470; 37507; 37422; 37450; 37446; 37485; 37484; 37455; 37472; 37479; 37487; 37430; 37473; 37488; 37425; 37460; 37475; 37456; 37490; 37454; 37459; 37452; 37462; 37426; 38303; 38300; 38302; 38299; 38546; 38547; 38545; 38551; 38606; 38650; 38653; 38648; 38645; 38771; 38775; 38776; 38770; 38927; 38925; 38926; 39084; 39158; 39161; 39343; 39346; 39344; 39349; 39597; 39595; 39771; 40170; 40173; 40167; 40576; 40701; 20710; 20692; 20695; 20712; 20723; 20699; 20714; 20701; 20708; 20691; 20716; 20720; 20719; 20707; 20704];
  [20952; 21120; 21121; 21225; 21227; 21296; 21420; 22055; 22037; 22028; 22034; 22012; 22031; 22044; 22017; 22035; 22018; 22010; 22045; 22020; 22015; 22009; 22665; 22652; 22672; 22680; 22662; 22657; 22655; 22644; 22667; 22650; 22663; 22673; 22670; 22646; 22658; 22664; 22651; 22676; 22671; 22782; 22891; 23260; 23278; 23269; 23253; 23274; 23258; 23277; 23275; 23283; 23266; 23264; 23259; 23276; 23262; 23261; 23257; 23272; 23263; 23415; 23520; 23523; 23651; 23938; 23936; 23933; 23942; 23930; 23937; 23927; 23946; 23945; 23944; 23934; 23932; 23949; 23929; 23935; 24152; 24153; 24147; 24280; 24273; 24279; 24270; 24284; 24277; 24281; 24274; 24276; 24388; 24387; 24431; 24502; 24876; 24872; 24897; 24926; 24945; 24947; 24914; 24915; 24946; 24940; 24960; 24948; 24916; 24954; 24923; 24933; 24891; 24938; 24929; 24918; 25129; 25127; 25131; 25643; 25677; 25691; 25693; 25716; 25718; 25714; 25715; 25725; 25717; 25702; 25766; 25678; 25730; 25694; 25692; 25675; 25683; 25696; 25680; 25727; 25663; 25708; 25707; 25689; 25701; 25719; 25971; 26016; 26273; 26272; 26271; 26373; 26372; 26402; 27057; 27062; 27081];
  [27040; 27086; 27030; 27056; 27052; 27068; 27025; 27033; 27022; 27047; 27021; 27049; 27070; 27055; 27071; 27076; 27069; 27044; 27092; 27065; 27082; 27034; 27087; 27059; 27027; 27050; 27041; 27038; 27097; 27031; 27024; 27074; 27061; 27045; 27078; 27466; 27469; 27467; 27550; 27551; 27552; 27587; 27588; 27646; 28366; 28405; 28401; 28419; 28453; 28408; 28471; 28411; 28462; 28425; 28494; 28441; 28442; 28455; 28440; 28475; 28434; 28397; 28426; 28470; 28531; 28409; 28398; 28461; 28480; 28464; 28476; 28469; 28395; 28423; 28430; 28483; 28421; 28413; 28406; 28473; 28444; 28412; 28474; 28447; 28429; 28446; 28424; 28449; 29063; 29072; 29065; 29056; 29061; 29058; 29071; 29051; 29062; 29057; 29079; 29252; 29267; 29335; 29333; 29331; 29507; 29517; 29521; 29516; 29794; 29811; 29809; 29813; 29810; 29799; 29806; 29952; 29954; 29955; 30077; 30096; 30230; 30216; 30220; 30229; 30225; 30218; 30228; 30392; 30593; 30588; 30597; 30594; 30574; 30592; 30575; 30590; 30595; 30898; 30890; 30900; 30893; 30888; 30846; 30891; 30878; 30885; 30880; 30892; 30882; 30884; 31128; 31114; 31115; 31126; 31125; 31124; 31123];
  [31127; 31112; 31122; 31120; 31275; 31306; 31280; 31279; 31272; 31270; 31400; 31403; 31404; 31470; 31624; 31644; 31626; 31633; 31632; 31638; 31629; 31628; 31643; 31630; 31621; 31640; 21124; 31641; 31652; 31618; 31931; 31935; 31932; 31930; 32167; 32183; 32194; 32163; 32170; 32193; 32192; 32197; 32157; 32206; 32196; 32198; 32203; 32204; 32175; 32185; 32150; 32188; 32159; 32166; 32174; 32169; 32161; 32201; 32627; 32738; 32739; 32741; 32734; 32804; 32861; 32860; 33161; 33158; 33155; 33159; 33165; 33164; 33163; 33301; 33943; 33956; 33953; 33951; 33978; 33998; 33986; 33964; 33966; 33963; 33977; 33972; 33985; 33997; 33962; 33946; 33969; 34000; 33949; 33959; 33979; 33954; 33940; 33991; 33996; 33947; 33961; 33967; 33960; 34006; 33944; 33974; 33999; 33952; 34007; 34004; 34002; 34011; 33968; 33937; 34401; 34611; 34595; 34600; 34667; 34624; 34606; 34590; 34593; 34585; 34587; 34627; 34604; 34625; 34622; 34630; 34592; 34610; 34602; 34605; 34620; 34578; 34618; 34609; 34613; 34626; 34598; 34599; 34616; 34596; 34586; 34608; 34577; 35063; 35047; 35057; 35058; 35066; 35070; 35054; 35068; 35062; 35067];
  [35056; 35052; 35051; 35229; 35233; 35231; 35230; 35305; 35307; 35304; 35499; 35481; 35467; 35474; 35471; 35478; 35901; 35944; 35945; 36053; 36047; 36055; 36246; 36361; 36354; 36351; 36365; 36349; 36362; 36355; 36359; 36358; 36357; 36350; 36352; 36356; 36624; 36625; 36622; 36621; 37155; 37148; 37152; 37154; 37151; 37149; 37146; 37156; 37153; 37147; 37242; 37234; 37241; 37235; 37541; 37540; 37494; 37531; 37498; 37536; 37524; 37546; 37517; 37542; 37530; 37547; 37497; 37527; 37503; 37539; 37614; 37518; 37506; 37525; 37538; 37501; 37512; 37537; 37514; 37510; 37516; 37529; 37543; 37502; 37511; 37545; 37533; 37515; 37421; 38558; 38561; 38655; 38744; 38781; 38778; 38782; 38787; 38784; 38786; 38779; 38788; 38785; 38783; 38862; 38861; 38934; 39085; 39086; 39170; 39168; 39175; 39325; 39324; 39363; 39353; 39355; 39354; 39362; 39357; 39367; 39601; 39651; 39655; 39742; 39743; 39776; 39777; 39775; 40177; 40178; 40181; 40615; 20735; 20739; 20784; 20728; 20742; 20743; 20726; 20734; 20747; 20748; 20733; 20746; 21131; 21132; 21233; 21231; 22088; 22082; 22092; 22069; 22081; 22090; 22089; 22086; 22104];
  [22106; 22080; 22067; 22077; 22060; 22078; 22072; 22058; 22074; 22298; 22699; 22685; 22705; 22688; 22691; 22703; 22700; 22693; 22689; 22783; 23295; 23284; 23293; 23287; 23286; 23299; 23288; 23298; 23289; 23297; 23303; 23301; 23311; 23655; 23961; 23959; 23967; 23954; 23970; 23955; 23957; 23968; 23964; 23969; 23962; 23966; 24169; 24157; 24160; 24156; 32243; 24283; 24286; 24289; 24393; 24498; 24971; 24963; 24953; 25009; 25008; 24994; 24969; 24987; 24979; 25007; 25005; 24991; 24978; 25002; 24993; 24973; 24934; 25011; 25133; 25710; 25712; 25750; 25760; 25733; 25751; 25756; 25743; 25739; 25738; 25740; 25763; 25759; 25704; 25777; 25752; 25974; 25978; 25977; 25979; 26034; 26035; 26293; 26288; 26281; 26290; 26295; 26282; 26287; 27136; 27142; 27159; 27109; 27128; 27157; 27121; 27108; 27168; 27135; 27116; 27106; 27163; 27165; 27134; 27175; 27122; 27118; 27156; 27127; 27111; 27200; 27144; 27110; 27131; 27149; 27132; 27115; 27145; 27140; 27160; 27173; 27151; 27126; 27174; 27143; 27124; 27158; 27473; 27557; 27555; 27554; 27558; 27649; 27648; 27647; 27650; 28481; 28454; 28542; 28551; 28614; 28562];
  [28557; 28553; 28556; 28514; 28495; 28549; 28506; 28566; 28534; 28524; 28546; 28501; 28530; 28498; 28496; 28503; 28564; 28563; 28509; 28416; 28513; 28523; 28541; 28519; 28560; 28499; 28555; 28521; 28543; 28565; 28515; 28535; 28522; 28539; 29106; 29103; 29083; 29104; 29088; 29082; 29097; 29109; 29085; 29093; 29086; 29092; 29089; 29098; 29084; 29095; 29107; 29336; 29338; 29528; 29522; 29534; 29535; 29536; 29533; 29531; 29537; 29530; 29529; 29538; 29831; 29833; 29834; 29830; 29825; 29821; 29829; 29832; 29820; 29817; 29960; 29959; 30078; 30245; 30238; 30233; 30237; 30236; 30243; 30234; 30248; 30235; 30364; 30365; 30366; 30363; 30605; 30607; 30601; 30600; 30925; 30907; 30927; 30924; 30929; 30926; 30932; 30920; 30915; 30916; 30921; 31130; 31137; 31136; 31132; 31138; 31131; 27510; 31289; 31410; 31412; 31411; 31671; 31691; 31678; 31660; 31694; 31663; 31673; 31690; 31669; 31941; 31944; 31948; 31947; 32247; 32219; 32234; 32231; 32215; 32225; 32259; 32250; 32230; 32246; 32241; 32240; 32238; 32223; 32630; 32684; 32688; 32685; 32749; 32747; 32746; 32748; 32742; 32744; 32868; 32871; 33187; 33183];
  [33182; 33173; 33186; 33177; 33175; 33302; 33359; 33363; 33362; 33360; 33358; 33361; 34084; 34107; 34063; 34048; 34089; 34062; 34057; 34061; 34079; 34058; 34087; 34076; 34043; 34091; 34042; 34056; 34060; 34036; 34090; 34034; 34069; 34039; 34027; 34035; 34044; 34066; 34026; 34025; 34070; 34046; 34088; 34077; 34094; 34050; 34045; 34078; 34038; 34097; 34086; 34023; 34024; 34032; 34031; 34041; 34072; 34080; 34096; 34059; 34073; 34095; 34402; 34646; 34659; 34660; 34679; 34785; 34675; 34648; 34644; 34651; 34642; 34657; 34650; 34641; 34654; 34669; 34666; 34640; 34638; 34655; 34653; 34671; 34668; 34682; 34670; 34652; 34661; 34639; 34683; 34677; 34658; 34663; 34665; 34906; 35077; 35084; 35092; 35083; 35095; 35096; 35097; 35078; 35094; 35089; 35086; 35081; 35234; 35236; 35235; 35309; 35312; 35308; 35535; 35526; 35512; 35539; 35537; 35540; 35541; 35515; 35543; 35518; 35520; 35525; 35544; 35523; 35514; 35517; 35545; 35902; 35917; 35983; 36069; 36063; 36057; 36072; 36058; 36061; 36071; 36256; 36252; 36257; 36251; 36384; 36387; 36389; 36388; 36398; 36373; 36379; 36374; 36369; 36377; 36390; 36391];
  [36372; 36370; 36376; 36371; 36380; 36375; 36378; 36652; 36644; 36632; 36634; 36640; 36643; 36630; 36631; 36979; 36976; 36975; 36967; 36971; 37167; 37163; 37161; 37162; 37170; 37158; 37166; 37253; 37254; 37258; 37249; 37250; 37252; 37248; 37584; 37571; 37572; 37568; 37593; 37558; 37583; 37617; 37599; 37592; 37609; 37591; 37597; 37580; 37615; 37570; 37608; 37578; 37576; 37582; 37606; 37581; 37589; 37577; 37600; 37598; 37607; 37585; 37587; 37557; 37601; 37574; 37556; 38268; 38316; 38315; 38318; 38320; 38564; 38562; 38611; 38661; 38664; 38658; 38746; 38794; 38798; 38792; 38864; 38863; 38942; 38941; 38950; 38953; 38952; 38944; 38939; 38951; 39090; 39176; 39162; 39185; 39188; 39190; 39191; 39189; 39388; 39373; 39375; 39379; 39380; 39374; 39369; 39382; 39384; 39371; 39383; 39372; 39603; 39660; 39659; 39667; 39666; 39665; 39750; 39747; 39783; 39796; 39793; 39782; 39798; 39797; 39792; 39784; 39780; 39788; 40188; 40186; 40189; 40191; 40183; 40199; 40192; 40185; 40187; 40200; 40197; 40196; 40579; 40659; 40719; 40720; 20764; 20755; 20759; 20762; 20753; 20958; 21300; 21473; 22128; 22112; 22126];
  [22131; 22118; 22115; 22125; 22130; 22110; 22135; 22300; 22299; 22728; 22717; 22729; 22719; 22714; 22722; 22716; 22726; 23319; 23321; 23323; 23329; 23316; 23315; 23312; 23318; 23336; 23322; 23328; 23326; 23535; 23980; 23985; 23977; 23975; 23989; 23984; 23982; 23978; 23976; 23986; 23981; 23983; 23988; 24167; 24168; 24166; 24175; 24297; 24295; 24294; 24296; 24293; 24395; 24508; 24989; 25000; 24982; 25029; 25012; 25030; 25025; 25036; 25018; 25023; 25016; 24972; 25815; 25814; 25808; 25807; 25801; 25789; 25737; 25795; 25819; 25843; 25817; 25907; 25983; 25980; 26018; 26312; 26302; 26304; 26314; 26315; 26319; 26301; 26299; 26298; 26316; 26403; 27188; 27238; 27209; 27239; 27186; 27240; 27198; 27229; 27245; 27254; 27227; 27217; 27176; 27226; 27195; 27199; 27201; 27242; 27236; 27216; 27215; 27220; 27247; 27241; 27232; 27196; 27230; 27222; 27221; 27213; 27214; 27206; 27477; 27476; 27478; 27559; 27562; 27563; 27592; 27591; 27652; 27651; 27654; 28589; 28619; 28579; 28615; 28604; 28622; 28616; 28510; 28612; 28605; 28574; 28618; 28584; 28676; 28581; 28590; 28602; 28588; 28586; 28623; 28607; 28600];
  [28578; 28617; 28587; 28621; 28591; 28594; 28592; 29125; 29122; 29119; 29112; 29142; 29120; 29121; 29131; 29140; 29130; 29127; 29135; 29117; 29144; 29116; 29126; 29146; 29147; 29341; 29342; 29545; 29542; 29543; 29548; 29541; 29547; 29546; 29823; 29850; 29856; 29844; 29842; 29845; 29857; 29963; 30080; 30255; 30253; 30257; 30269; 30259; 30268; 30261; 30258; 30256; 30395; 30438; 30618; 30621; 30625; 30620; 30619; 30626; 30627; 30613; 30617; 30615; 30941; 30953; 30949; 30954; 30942; 30947; 30939; 30945; 30946; 30957; 30943; 30944; 31140; 31300; 31304; 31303; 31414; 31416; 31413; 31409; 31415; 31710; 31715; 31719; 31709; 31701; 31717; 31706; 31720; 31737; 31700; 31722; 31714; 31708; 31723; 31704; 31711; 31954; 31956; 31959; 31952; 31953; 32274; 32289; 32279; 32268; 32287; 32288; 32275; 32270; 32284; 32277; 32282; 32290; 32267; 32271; 32278; 32269; 32276; 32293; 32292; 32579; 32635; 32636; 32634; 32689; 32751; 32810; 32809; 32876; 33201; 33190; 33198; 33209; 33205; 33195; 33200; 33196; 33204; 33202; 33207; 33191; 33266; 33365; 33366; 33367; 34134; 34117; 34155; 34125; 34131; 34145; 34136];
  [34112; 34118; 34148; 34113; 34146; 34116; 34129; 34119; 34147; 34110; 34139; 34161; 34126; 34158; 34165; 34133; 34151; 34144; 34188; 34150; 34141; 34132; 34149; 34156; 34403; 34405; 34404; 34715; 34703; 34711; 34707; 34706; 34696; 34689; 34710; 34712; 34681; 34695; 34723; 34693; 34704; 34705; 34717; 34692; 34708; 34716; 34714; 34697; 35102; 35110; 35120; 35117; 35118; 35111; 35121; 35106; 35113; 35107; 35119; 35116; 35103; 35313; 35552; 35554; 35570; 35572; 35573; 35549; 35604; 35556; 35551; 35568; 35528; 35550; 35553; 35560; 35583; 35567; 35579; 35985; 35986; 35984; 36085; 36078; 36081; 36080; 36083; 36204; 36206; 36261; 36263; 36403; 36414; 36408; 36416; 36421; 36406; 36412; 36413; 36417; 36400; 36415; 36541; 36662; 36654; 36661; 36658; 36665; 36663; 36660; 36982; 36985; 36987; 36998; 37114; 37171; 37173; 37174; 37267; 37264; 37265; 37261; 37263; 37671; 37662; 37640; 37663; 37638; 37647; 37754; 37688; 37692; 37659; 37667; 37650; 37633; 37702; 37677; 37646; 37645; 37579; 37661; 37626; 37669; 37651; 37625; 37623; 37684; 37634; 37668; 37631; 37673; 37689; 37685; 37674; 37652; 37644];
  [37643; 37630; 37641; 37632; 37627; 37654; 38332; 38349; 38334; 38329; 38330; 38326; 38335; 38325; 38333; 38569; 38612; 38667; 38674; 38672; 38809; 38807; 38804; 38896; 38904; 38965; 38959; 38962; 39204; 39199; 39207; 39209; 39326; 39406; 39404; 39397; 39396; 39408; 39395; 39402; 39401; 39399; 39609; 39615; 39604; 39611; 39670; 39674; 39673; 39671; 39731; 39808; 39813; 39815; 39804; 39806; 39803; 39810; 39827; 39826; 39824; 39802; 39829; 39805; 39816; 40229; 40215; 40224; 40222; 40212; 40233; 40221; 40216; 40226; 40208; 40217; 40223; 40584; 40582; 40583; 40622; 40621; 40661; 40662; 40698; 40722; 40765; 20774; 20773; 20770; 20772; 20768; 20777; 21236; 22163; 22156; 22157; 22150; 22148; 22147; 22142; 22146; 22143; 22145; 22742; 22740; 22735; 22738; 23341; 23333; 23346; 23331; 23340; 23335; 23334; 23343; 23342; 23419; 23537; 23538; 23991; 24172; 24170; 24510; 24507; 25027; 25013; 25020; 25063; 25056; 25061; 25060; 25064; 25054; 25839; 25833; 25827; 25835; 25828; 25832; 25985; 25984; 26038; 26074; 26322; 27277; 27286; 27265; 27301; 27273; 27295; 27291; 27297; 27294; 27271; 27283; 27278];
  [27285; 27267; 27304; 27300; 27281; 27263; 27302; 27290; 27269; 27276; 27282; 27483; 27565; 27657; 28620; 28585; 28660; 28628; 28643; 28636; 28653; 28647; 28646; 28638; 28658; 28637; 28642; 28648; 29153; 29169; 29160; 29170; 29156; 29168; 29154; 29555; 29550; 29551; 29847; 29874; 29867; 29840; 29866; 29869; 29873; 29861; 29871; 29968; 29969; 29970; 29967; 30084; 30275; 30280; 30281; 30279; 30372; 30441; 30645; 30635; 30642; 30647; 30646; 30644; 30641; 30632; 30704; 30963; 30973; 30978; 30971; 30972; 30962; 30981; 30969; 30974; 30980; 31147; 31144; 31324; 31323; 31318; 31320; 31316; 31322; 31422; 31424; 31425; 31749; 31759; 31730; 31744; 31743; 31739; 31758; 31732; 31755; 31731; 31746; 31753; 31747; 31745; 31736; 31741; 31750; 31728; 31729; 31760; 31754; 31976; 32301; 32316; 32322; 32307; 38984; 32312; 32298; 32329; 32320; 32327; 32297; 32332; 32304; 32315; 32310; 32324; 32314; 32581; 32639; 32638; 32637; 32756; 32754; 32812; 33211; 33220; 33228; 33226; 33221; 33223; 33212; 33257; 33371; 33370; 33372; 34179; 34176; 34191; 34215; 34197; 34208; 34187; 34211; 34171; 34212; 34202; 34206];
  [34167; 34172; 34185; 34209; 34170; 34168; 34135; 34190; 34198; 34182; 34189; 34201; 34205; 34177; 34210; 34178; 34184; 34181; 34169; 34166; 34200; 34192; 34207; 34408; 34750; 34730; 34733; 34757; 34736; 34732; 34745; 34741; 34748; 34734; 34761; 34755; 34754; 34764; 34743; 34735; 34756; 34762; 34740; 34742; 34751; 34744; 34749; 34782; 34738; 35125; 35123; 35132; 35134; 35137; 35154; 35127; 35138; 35245; 35247; 35246; 35314; 35315; 35614; 35608; 35606; 35601; 35589; 35595; 35618; 35599; 35602; 35605; 35591; 35597; 35592; 35590; 35612; 35603; 35610; 35919; 35952; 35954; 35953; 35951; 35989; 35988; 36089; 36207; 36430; 36429; 36435; 36432; 36428; 36423; 36675; 36672; 36997; 36990; 37176; 37274; 37282; 37275; 37273; 37279; 37281; 37277; 37280; 37793; 37763; 37807; 37732; 37718; 37703; 37756; 37720; 37724; 37750; 37705; 37712; 37713; 37728; 37741; 37775; 37708; 37738; 37753; 37719; 37717; 37714; 37711; 37745; 37751; 37755; 37729; 37726; 37731; 37735; 37760; 37710; 37721; 38343; 38336; 38345; 38339; 38341; 38327; 38574; 38576; 38572; 38688; 38687; 38680; 38685; 38681; 38810; 38817; 38812];
  [38814; 38813; 38869; 38868; 38897; 38977; 38980; 38986; 38985; 38981; 38979; 39205; 39211; 39212; 39210; 39219; 39218; 39215; 39213; 39217; 39216; 39320; 39331; 39329; 39426; 39418; 39412; 39415; 39417; 39416; 39414; 39419; 39421; 39422; 39420; 39427; 39614; 39678; 39677; 39681; 39676; 39752; 39834; 39848; 39838; 39835; 39846; 39841; 39845; 39844; 39814; 39842; 39840; 39855; 40243; 40257; 40295; 40246; 40238; 40239; 40241; 40248; 40240; 40261; 40258; 40259; 40254; 40247; 40256; 40253; 32757; 40237; 40586; 40585; 40589; 40624; 40648; 40666; 40699; 40703; 40740; 40739; 40738; 40788; 40864; 20785; 20781; 20782; 22168; 22172; 22167; 22170; 22173; 22169; 22896; 23356; 23657; 23658; 24000; 24173; 24174; 25048; 25055; 25069; 25070; 25073; 25066; 25072; 25067; 25046; 25065; 25855; 25860; 25853; 25848; 25857; 25859; 25852; 26004; 26075; 26330; 26331; 26328; 27333; 27321; 27325; 27361; 27334; 27322; 27318; 27319; 27335; 27316; 27309; 27486; 27593; 27659; 28679; 28684; 28685; 28673; 28677; 28692; 28686; 28671; 28672; 28667; 28710; 28668; 28663; 28682; 29185; 29183; 29177; 29187; 29181; 29558];
  [29880; 29888; 29877; 29889; 29886; 29878; 29883; 29890; 29972; 29971; 30300; 30308; 30297; 30288; 30291; 30295; 30298; 30374; 30397; 30444; 30658; 30650; 30975; 30988; 30995; 30996; 30985; 30992; 30994; 30993; 31149; 31148; 31327; 31772; 31785; 31769; 31776; 31775; 31789; 31773; 31782; 31784; 31778; 31781; 31792; 32348; 32336; 32342; 32355; 32344; 32354; 32351; 32337; 32352; 32343; 32339; 32693; 32691; 32759; 32760; 32885; 33233; 33234; 33232; 33375; 33374; 34228; 34246; 34240; 34243; 34242; 34227; 34229; 34237; 34247; 34244; 34239; 34251; 34254; 34248; 34245; 34225; 34230; 34258; 34340; 34232; 34231; 34238; 34409; 34791; 34790; 34786; 34779; 34795; 34794; 34789; 34783; 34803; 34788; 34772; 34780; 34771; 34797; 34776; 34787; 34724; 34775; 34777; 34817; 34804; 34792; 34781; 35155; 35147; 35151; 35148; 35142; 35152; 35153; 35145; 35626; 35623; 35619; 35635; 35632; 35637; 35655; 35631; 35644; 35646; 35633; 35621; 35639; 35622; 35638; 35630; 35620; 35643; 35645; 35642; 35906; 35957; 35993; 35992; 35991; 36094; 36100; 36098; 36096; 36444; 36450; 36448; 36439; 36438; 36446; 36453; 36455];
  [36443; 36442; 36449; 36445; 36457; 36436; 36678; 36679; 36680; 36683; 37160; 37178; 37179; 37182; 37288; 37285; 37287; 37295; 37290; 37813; 37772; 37778; 37815; 37787; 37789; 37769; 37799; 37774; 37802; 37790; 37798; 37781; 37768; 37785; 37791; 37773; 37809; 37777; 37810; 37796; 37800; 37812; 37795; 37797; 38354; 38355; 38353; 38579; 38615; 38618; 24002; 38623; 38616; 38621; 38691; 38690; 38693; 38828; 38830; 38824; 38827; 38820; 38826; 38818; 38821; 38871; 38873; 38870; 38872; 38906; 38992; 38993; 38994; 39096; 39233; 39228; 39226; 39439; 39435; 39433; 39437; 39428; 39441; 39434; 39429; 39431; 39430; 39616; 39644; 39688; 39684; 39685; 39721; 39733; 39754; 39756; 39755; 39879; 39878; 39875; 39871; 39873; 39861; 39864; 39891; 39862; 39876; 39865; 39869; 40284; 40275; 40271; 40266; 40283; 40267; 40281; 40278; 40268; 40279; 40274; 40276; 40287; 40280; 40282; 40590; 40588; 40671; 40705; 40704; 40726; 40741; 40747; 40746; 40745; 40744; 40780; 40789; 20788; 20789; 21142; 21239; 21428; 22187; 22189; 22182; 22183; 22186; 22188; 22746; 22749; 22747; 22802; 23357; 23358; 23359; 24003; 24176];
  [24511; 25083; 25863; 25872; 25869; 25865; 25868; 25870; 25988; 26078; 26077; 26334; 27367; 27360; 27340; 27345; 27353; 27339; 27359; 27356; 27344; 27371; 27343; 27341; 27358; 27488; 27568; 27660; 28697; 28711; 28704; 28694; 28715; 28705; 28706; 28707; 28713; 28695; 28708; 28700; 28714; 29196; 29194; 29191; 29186; 29189; 29349; 29350; 29348; 29347; 29345; 29899; 29893; 29879; 29891; 29974; 30304; 30665; 30666; 30660; 30705; 31005; 31003; 31009; 31004; 30999; 31006; 31152; 31335; 31336; 31795; 31804; 31801; 31788; 31803; 31980; 31978; 32374; 32373; 32376; 32368; 32375; 32367; 32378; 32370; 32372; 32360; 32587; 32586; 32643; 32646; 32695; 32765; 32766; 32888; 33239; 33237; 33380; 33377; 33379; 34283; 34289; 34285; 34265; 34273; 34280; 34266; 34263; 34284; 34290; 34296; 34264; 34271; 34275; 34268; 34257; 34288; 34278; 34287; 34270; 34274; 34816; 34810; 34819; 34806; 34807; 34825; 34828; 34827; 34822; 34812; 34824; 34815; 34826; 34818; 35170; 35162; 35163; 35159; 35169; 35164; 35160; 35165; 35161; 35208; 35255; 35254; 35318; 35664; 35656; 35658; 35648; 35667; 35670; 35668; 35659; 35669];
  [35665; 35650; 35666; 35671; 35907; 35959; 35958; 35994; 36102; 36103; 36105; 36268; 36266; 36269; 36267; 36461; 36472; 36467; 36458; 36463; 36475; 36546; 36690; 36689; 36687; 36688; 36691; 36788; 37184; 37183; 37296; 37293; 37854; 37831; 37839; 37826; 37850; 37840; 37881; 37868; 37836; 37849; 37801; 37862; 37834; 37844; 37870; 37859; 37845; 37828; 37838; 37824; 37842; 37863; 38269; 38362; 38363; 38625; 38697; 38699; 38700; 38696; 38694; 38835; 38839; 38838; 38877; 38878; 38879; 39004; 39001; 39005; 38999; 39103; 39101; 39099; 39102; 39240; 39239; 39235; 39334; 39335; 39450; 39445; 39461; 39453; 39460; 39451; 39458; 39456; 39463; 39459; 39454; 39452; 39444; 39618; 39691; 39690; 39694; 39692; 39735; 39914; 39915; 39904; 39902; 39908; 39910; 39906; 39920; 39892; 39895; 39916; 39900; 39897; 39909; 39893; 39905; 39898; 40311; 40321; 40330; 40324; 40328; 40305; 40320; 40312; 40326; 40331; 40332; 40317; 40299; 40308; 40309; 40304; 40297; 40325; 40307; 40315; 40322; 40303; 40313; 40319; 40327; 40296; 40596; 40593; 40640; 40700; 40749; 40768; 40769; 40781; 40790; 40791; 40792; 21303; 22194];
  [22197; 22195; 22755; 23365; 24006; 24007; 24302; 24303; 24512; 24513; 25081; 25879; 25878; 25877; 25875; 26079; 26344; 26339; 26340; 27379; 27376; 27370; 27368; 27385; 27377; 27374; 27375; 28732; 28725; 28719; 28727; 28724; 28721; 28738; 28728; 28735; 28730; 28729; 28736; 28731; 28723; 28737; 29203; 29204; 29352; 29565; 29564; 29882; 30379; 30378; 30398; 30445; 30668; 30670; 30671; 30669; 30706; 31013; 31011; 31015; 31016; 31012; 31017; 31154; 31342; 31340; 31341; 31479; 31817; 31816; 31818; 31815; 31813; 31982; 32379; 32382; 32385; 32384; 32698; 32767; 32889; 33243; 33241; 33291; 33384; 33385; 34338; 34303; 34305; 34302; 34331; 34304; 34294; 34308; 34313; 34309; 34316; 34301; 34841; 34832; 34833; 34839; 34835; 34838; 35171; 35174; 35257; 35319; 35680; 35690; 35677; 35688; 35683; 35685; 35687; 35693; 36270; 36486; 36488; 36484; 36697; 36694; 36695; 36693; 36696; 36698; 37005; 37187; 37185; 37303; 37301; 37298; 37299; 37899; 37907; 37883; 37920; 37903; 37908; 37886; 37909; 37904; 37928; 37913; 37901; 37877; 37888; 37879; 37895; 37902; 37910; 37906; 37882; 37897; 37880; 37898; 37887];
  [37884; 37900; 37878; 37905; 37894; 38366; 38368; 38367; 38702; 38703; 38841; 38843; 38909; 38910; 39008; 39010; 39011; 39007; 39105; 39106; 39248; 39246; 39257; 39244; 39243; 39251; 39474; 39476; 39473; 39468; 39466; 39478; 39465; 39470; 39480; 39469; 39623; 39626; 39622; 39696; 39698; 39697; 39947; 39944; 39927; 39941; 39954; 39928; 40000; 39943; 39950; 39942; 39959; 39956; 39945; 40351; 40345; 40356; 40349; 40338; 40344; 40336; 40347; 40352; 40340; 40348; 40362; 40343; 40353; 40346; 40354; 40360; 40350; 40355; 40383; 40361; 40342; 40358; 40359; 40601; 40603; 40602; 40677; 40676; 40679; 40678; 40752; 40750; 40795; 40800; 40798; 40797; 40793; 40849; 20794; 20793; 21144; 21143; 22211; 22205; 22206; 23368; 23367; 24011; 24015; 24305; 25085; 25883; 27394; 27388; 27395; 27384; 27392; 28739; 28740; 28746; 28744; 28745; 28741; 28742; 29213; 29210; 29209; 29566; 29975; 30314; 30672; 31021; 31025; 31023; 31828; 31827; 31986; 32394; 32391; 32392; 32395; 32390; 32397; 32589; 32699; 32816; 33245; 34328; 34346; 34342; 34335; 34339; 34332; 34329; 34343; 34350; 34337; 34336; 34345; 34334; 34341];
  [34857; 34845; 34843; 34848; 34852; 34844; 34859; 34890; 35181; 35177; 35182; 35179; 35322; 35705; 35704; 35653; 35706; 35707; 36112; 36116; 36271; 36494; 36492; 36702; 36699; 36701; 37190; 37188; 37189; 37305; 37951; 37947; 37942; 37929; 37949; 37948; 37936; 37945; 37930; 37943; 37932; 37952; 37937; 38373; 38372; 38371; 38709; 38714; 38847; 38881; 39012; 39113; 39110; 39104; 39256; 39254; 39481; 39485; 39494; 39492; 39490; 39489; 39482; 39487; 39629; 39701; 39703; 39704; 39702; 39738; 39762; 39979; 39965; 39964; 39980; 39971; 39976; 39977; 39972; 39969; 40375; 40374; 40380; 40385; 40391; 40394; 40399; 40382; 40389; 40387; 40379; 40373; 40398; 40377; 40378; 40364; 40392; 40369; 40365; 40396; 40371; 40397; 40370; 40570; 40604; 40683; 40686; 40685; 40731; 40728; 40730; 40753; 40782; 40805; 40804; 40850; 20153; 22214; 22213; 22219; 22897; 23371; 23372; 24021; 24017; 24306; 25889; 25888; 25894; 25890; 27403; 27400; 27401; 27661; 28757; 28758; 28759; 28754; 29214; 29215; 29353; 29567; 29912; 29909; 29913; 29911; 30317; 30381; 31029; 31156; 31344; 31345; 31831; 31836; 31833; 31835; 31834];
  [31988; 31985; 32401; 32591; 32647; 33246; 33387; 34356; 34357; 34355; 34348; 34354; 34358; 34860; 34856; 34854; 34858; 34853; 35185; 35263; 35262; 35323; 35710; 35716; 35714; 35718; 35717; 35711; 36117; 36501; 36500; 36506; 36498; 36496; 36502; 36503; 36704; 36706; 37191; 37964; 37968; 37962; 37963; 37967; 37959; 37957; 37960; 37961; 37958; 38719; 38883; 39018; 39017; 39115; 39252; 39259; 39502; 39507; 39508; 39500; 39503; 39496; 39498; 39497; 39506; 39504; 39632; 39705; 39723; 39739; 39766; 39765; 40006; 40008; 39999; 40004; 39993; 39987; 40001; 39996; 39991; 39988; 39986; 39997; 39990; 40411; 40402; 40414; 40410; 40395; 40400; 40412; 40401; 40415; 40425; 40409; 40408; 40406; 40437; 40405; 40413; 40630; 40688; 40757; 40755; 40754; 40770; 40811; 40853; 40866; 20797; 21145; 22760; 22759; 22898; 23373; 24024; 34863; 24399; 25089; 25091; 25092; 25897; 25893; 26006; 26347; 27409; 27410; 27407; 27594; 28763; 28762; 29218; 29570; 29569; 29571; 30320; 30676; 31847; 31846; 32405; 33388; 34362; 34368; 34361; 34364; 34353; 34363; 34366; 34864; 34866; 34862; 34867; 35190; 35188; 35187; 35326];
  [35724; 35726; 35723; 35720; 35909; 36121; 36504; 36708; 36707; 37308; 37986; 37973; 37981; 37975; 37982; 38852; 38853; 38912; 39510; 39513; 39710; 39711; 39712; 40018; 40024; 40016; 40010; 40013; 40011; 40021; 40025; 40012; 40014; 40443; 40439; 40431; 40419; 40427; 40440; 40420; 40438; 40417; 40430; 40422; 40434; 40432; 40418; 40428; 40436; 40435; 40424; 40429; 40642; 40656; 40690; 40691; 40710; 40732; 40760; 40759; 40758; 40771; 40783; 40817; 40816; 40814; 40815; 22227; 22221; 23374; 23661; 25901; 26349; 26350; 27411; 28767; 28769; 28765; 28768; 29219; 29915; 29925; 30677; 31032; 31159; 31158; 31850; 32407; 32649; 33389; 34371; 34872; 34871; 34869; 34891; 35732; 35733; 36510; 36511; 36512; 36509; 37310; 37309; 37314; 37995; 37992; 37993; 38629; 38726; 38723; 38727; 38855; 38885; 39518; 39637; 39769; 40035; 40039; 40038; 40034; 40030; 40032; 40450; 40446; 40455; 40451; 40454; 40453; 40448; 40449; 40457; 40447; 40445; 40452; 40608; 40734; 40774; 40820; 40821; 40822; 22228; 25902; 26040; 27416; 27417; 27415; 27418; 28770; 29222; 29354; 30680; 30681; 31033; 31849; 31851; 31990; 32410];
  [32408; 32411; 32409; 33248; 33249; 34374; 34375; 34376; 35193; 35194; 35196; 35195; 35327; 35736; 35737; 36517; 36516; 36515; 37998; 37997; 37999; 38001; 38003; 38729; 39026; 39263; 40040; 40046; 40045; 40459; 40461; 40464; 40463; 40466; 40465; 40609; 40693; 40713; 40775; 40824; 40827; 40826; 40825; 22302; 28774; 31855; 34876; 36274; 36518; 37315; 38004; 38008; 38006; 38005; 39520; 40052; 40051; 40049; 40053; 40468; 40467; 40694; 40714; 40868; 28776; 28773; 31991; 34410; 34878; 34877; 34879; 35742; 35996; 36521; 36553; 38731; 39027; 39028; 39116; 39265; 39339; 39524; 39526; 39527; 39716; 40469; 40471; 40776; 25095; 27422; 29223; 34380; 36520; 38018; 38016; 38017; 39529; 39528; 39726; 40473; 29225; 34379; 35743; 38019; 40057; 40631; 30325; 39531; 40058; 40477; 28777; 28778; 40612; 40830; 40777; 40856; 30849; 37561; 35023; 22715; 24658; 31911; 23290; 9556; 9574; 9559; 9568; 9580; 9571; 9562; 9577; 9565; 9554; 9572; 9557; 9566; 9578; 9569; 9560; 9575; 9563; 9555; 9573; 9558; 9567; 9579; 9570; 9561; 9576; 9564; 9553; 9552; 9581; 9582; 9584; 9583; 65517];
  [132423; 37595; 132575; 147397; 34124; 17077; 29679; 20917; 13897; 149826; 166372; 37700; 137691; 33518; 146632; 30780; 26436; 25311; 149811; 166314; 131744; 158643; 135941; 20395; 140525; 20488; 159017; 162436; 144896; 150193; 140563; 20521; 131966; 24484; 131968; 131911; 28379; 132127; 20605; 20737; 13434; 20750; 39020; 14147; 33814; 149924; 132231; 20832; 144308; 20842; 134143; 139516; 131813; 140592; 132494; 143923; 137603; 23426; 34685; 132531; 146585; 20914; 20920; 40244; 20937; 20943; 20945; 15580; 20947; 150182; 20915; 20962; 21314; 20973; 33741; 26942; 145197; 24443; 21003; 21030; 21052; 21173; 21079; 21140; 21177; 21189; 31765; 34114; 21216; 34317; 158483; 21253; 166622; 21833; 28377; 147328; 133460; 147436; 21299; 21316; 134114; 27851; 136998; 26651; 29653; 24650; 16042; 14540; 136936; 29149; 17570; 21357; 21364; 165547; 21374; 21375; 136598; 136723; 30694; 21395; 166555; 21408; 21419; 21422; 29607; 153458; 16217; 29596; 21441; 21445; 27721; 20041; 22526; 21465; 15019; 134031; 21472; 147435; 142755; 21494; 134263; 21523; 28793; 21803; 26199; 27995; 21613; 158547; 134516; 21853; 21647; 21668; 18342; 136973; 134877; 15796; 134477];
  [166332; 140952; 21831; 19693; 21551; 29719; 21894; 21929; 22021; 137431; 147514; 17746; 148533; 26291; 135348; 22071; 26317; 144010; 26276; 26285; 22093; 22095; 30961; 22257; 38791; 21502; 22272; 22255; 22253; 166758; 13859; 135759; 22342; 147877; 27758; 28811; 22338; 14001; 158846; 22502; 136214; 22531; 136276; 148323; 22566; 150517; 22620; 22698; 13665; 22752; 22748; 135740; 22779; 23551; 22339; 172368; 148088; 37843; 13729; 22815; 26790; 14019; 28249; 136766; 23076; 21843; 136850; 34053; 22985; 134478; 158849; 159018; 137180; 23001; 137211; 137138; 159142; 28017; 137256; 136917; 23033; 159301; 23211; 23139; 14054; 149929; 23159; 14088; 23190; 29797; 23251; 159649; 140628; 15749; 137489; 14130; 136888; 24195; 21200; 23414; 25992; 23420; 162318; 16388; 18525; 131588; 23509; 24928; 137780; 154060; 132517; 23539; 23453; 19728; 23557; 138052; 23571; 29646; 23572; 138405; 158504; 23625; 18653; 23685; 23785; 23791; 23947; 138745; 138807; 23824; 23832; 23878; 138916; 23738; 24023; 33532; 14381; 149761; 139337; 139635; 33415; 14390; 15298; 24110; 27274; 24181; 24186; 148668; 134355; 21414; 20151; 24272; 21416; 137073; 24073; 24308; 164994];
  [24313; 24315; 14496; 24316; 26686; 37915; 24333; 131521; 194708; 15070; 18606; 135994; 24378; 157832; 140240; 24408; 140401; 24419; 38845; 159342; 24434; 37696; 166454; 24487; 23990; 15711; 152144; 139114; 159992; 140904; 37334; 131742; 166441; 24625; 26245; 137335; 14691; 15815; 13881; 22416; 141236; 31089; 15936; 24734; 24740; 24755; 149890; 149903; 162387; 29860; 20705; 23200; 24932; 33828; 24898; 194726; 159442; 24961; 20980; 132694; 24967; 23466; 147383; 141407; 25043; 166813; 170333; 25040; 14642; 141696; 141505; 24611; 24924; 25886; 25483; 131352; 25285; 137072; 25301; 142861; 25452; 149983; 14871; 25656; 25592; 136078; 137212; 25744; 28554; 142902; 38932; 147596; 153373; 25825; 25829; 38011; 14950; 25658; 14935; 25933; 28438; 150056; 150051; 25989; 25965; 25951; 143486; 26037; 149824; 19255; 26065; 16600; 137257; 26080; 26083; 24543; 144384; 26136; 143863; 143864; 26180; 143780; 143781; 26187; 134773; 26215; 152038; 26227; 26228; 138813; 143921; 165364; 143816; 152339; 30661; 141559; 39332; 26370; 148380; 150049; 15147; 27130; 145346; 26462; 26471; 26466; 147917; 168173; 26583; 17641; 26658; 28240; 37436; 26625; 144358; 159136; 26717];
  [144495; 27105; 27147; 166623; 26995; 26819; 144845; 26881; 26880; 15666; 14849; 144956; 15232; 26540; 26977; 166474; 17148; 26934; 27032; 15265; 132041; 33635; 20624; 27129; 144985; 139562; 27205; 145155; 27293; 15347; 26545; 27336; 168348; 15373; 27421; 133411; 24798; 27445; 27508; 141261; 28341; 146139; 132021; 137560; 14144; 21537; 146266; 27617; 147196; 27612; 27703; 140427; 149745; 158545; 27738; 33318; 27769; 146876; 17605; 146877; 147876; 149772; 149760; 146633; 14053; 15595; 134450; 39811; 143865; 140433; 32655; 26679; 159013; 159137; 159211; 28054; 27996; 28284; 28420; 149887; 147589; 159346; 34099; 159604; 20935; 27804; 28189; 33838; 166689; 28207; 146991; 29779; 147330; 31180; 28239; 23185; 143435; 28664; 14093; 28573; 146992; 28410; 136343; 147517; 17749; 37872; 28484; 28508; 15694; 28532; 168304; 15675; 28575; 147780; 28627; 147601; 147797; 147513; 147440; 147380; 147775; 20959; 147798; 147799; 147776; 156125; 28747; 28798; 28839; 28801; 28876; 28885; 28886; 28895; 16644; 15848; 29108; 29078; 148087; 28971; 28997; 23176; 29002; 29038; 23708; 148325; 29007; 37730; 148161; 28972; 148570; 150055; 150050; 29114; 166888; 28861; 29198];
  [37954; 29205; 22801; 37955; 29220; 37697; 153093; 29230; 29248; 149876; 26813; 29269; 29271; 15957; 143428; 26637; 28477; 29314; 29482; 29483; 149539; 165931; 18669; 165892; 29480; 29486; 29647; 29610; 134202; 158254; 29641; 29769; 147938; 136935; 150052; 26147; 14021; 149943; 149901; 150011; 29687; 29717; 26883; 150054; 29753; 132547; 16087; 29788; 141485; 29792; 167602; 29767; 29668; 29814; 33721; 29804; 14128; 29812; 37873; 27180; 29826; 18771; 150156; 147807; 150137; 166799; 23366; 166915; 137374; 29896; 137608; 29966; 29929; 29982; 167641; 137803; 23511; 167596; 37765; 30029; 30026; 30055; 30062; 151426; 16132; 150803; 30094; 29789; 30110; 30132; 30210; 30252; 30289; 30287; 30319; 30326; 156661; 30352; 33263; 14328; 157969; 157966; 30369; 30373; 30391; 30412; 159647; 33890; 151709; 151933; 138780; 30494; 30502; 30528; 25775; 152096; 30552; 144044; 30639; 166244; 166248; 136897; 30708; 30729; 136054; 150034; 26826; 30895; 30919; 30931; 38565; 31022; 153056; 30935; 31028; 30897; 161292; 36792; 34948; 166699; 155779; 140828; 31110; 35072; 26882; 31104; 153687; 31133; 162617; 31036; 31145; 28202; 160038; 16040; 31174; 168205; 31188]].

(** indexes_pointer.cpp:5 *)
Definition index_pointer_big5_0 : list Z := concat [
  [167; 168; 175; 176; 177; 183; 215; 247; 248; 331; 339; 592; 596; 603; 618; 629; 643; 650; 710; 711; 713; 714; 715; 717; 729; 913; 914; 915; 916; 917; 918; 919; 920; 921; 922; 923; 924; 925; 926; 927; 928; 929; 931; 932; 933; 934; 935; 936; 937; 945; 946; 947; 948; 949; 950; 951; 952; 953; 954; 955; 956; 957; 958; 959; 960; 961; 963; 964; 965; 966; 967; 968; 969; 1025; 1040; 1041; 1042; 1043; 1044; 1045; 1046; 1047; 1048; 1049; 1050; 1051; 1052; 1053; 1054; 1055; 1056; 1057; 1058; 1059; 1060; 1061; 1062; 1063; 1064; 1065];
  [1066; 1067; 1068; 1069; 1070; 1071; 1072; 1073; 1074; 1075; 1076; 1077; 1078; 1079; 1080; 1081; 1082; 1083; 1084; 1085; 1086; 1087; 1088; 1089; 1090; 1091; 1092; 1093; 1094; 1095; 1096; 1097; 1098; 1099; 1100; 1101; 1102; 1103; 1105; 8211; 8212; 8216; 8217; 8220; 8221; 8229; 8230; 8231; 8242; 8245; 8251; 8364; 8451; 8453; 8457; 8470; 8481; 8544; 8545; 8546; 8547; 8548; 8549; 8550; 8551; 8552; 8553; 8560; 8561; 8562; 8563; 8564; 8565; 8566; 8567; 8568; 8569; 8592; 8593; 8594; 8595; 8598; 8599; 8600; 8601; 8632; 8633; 8679; 8725; 8730; 8734; 8735; 8736; 8739; 8741; 8745; 8746; 8747; 8750; 8756];
  [8757; 8786; 8800; 8801; 8806; 8807; 8853; 8857; 8869; 8895; 9216; 9217; 9218; 9219; 9220; 9221; 9222; 9223; 9224; 9225; 9226; 9227; 9228; 9229; 9230; 9231; 9232; 9233; 9234; 9235; 9236; 9237; 9238; 9239; 9240; 9241; 9242; 9243; 9244; 9245; 9246; 9247; 9249; 9312; 9313; 9314; 9315; 9316; 9317; 9318; 9319; 9320; 9321; 9332; 9333; 9334; 9335; 9336; 9337; 9338; 9339; 9340; 9341; 9472; 9474; 9484; 9488; 9492; 9496; 9500; 9508; 9516; 9524; 9532; 9552; 9552; 9553; 9554; 9555; 9556; 9557; 9558; 9559; 9560; 9561; 9562; 9563; 9564; 9565; 9566; 9566; 9567; 9568; 9569; 9569; 9570; 9571; 9572; 9573; 9574];
  [9575; 9576; 9577; 9578; 9578; 9579; 9580; 9581; 9582; 9583; 9584; 9585; 9586; 9587; 9588; 9601; 9602; 9603; 9604; 9605; 9606; 9607; 9608; 9609; 9610; 9611; 9612; 9613; 9614; 9615; 9620; 9621; 9632; 9633; 9650; 9651; 9660; 9661; 9670; 9671; 9675; 9678; 9679; 9698; 9699; 9700; 9701; 9733; 9734; 9792; 9794; 10045; 11904; 11908; 11910; 11911; 11912; 11914; 11916; 11917; 11925; 11932; 11933; 11941; 11943; 11946; 11948; 11950; 11958; 11964; 11966; 11974; 11978; 11980; 11981; 11983; 11990; 11991; 11998; 12003; 12083; 12288; 12289; 12290; 12291; 12293; 12294; 12295; 12296; 12297; 12298; 12299; 12300; 12301; 12302; 12303; 12304; 12305; 12306; 12308];
  [12309; 12317; 12318; 12321; 12322; 12323; 12324; 12325; 12326; 12327; 12328; 12329; 12353; 12354; 12355; 12356; 12357; 12358; 12359; 12360; 12361; 12362; 12363; 12364; 12365; 12366; 12367; 12368; 12369; 12370; 12371; 12372; 12373; 12374; 12375; 12376; 12377; 12378; 12379; 12380; 12381; 12382; 12383; 12384; 12385; 12386; 12387; 12388; 12389; 12390; 12391; 12392; 12393; 12394; 12395; 12396; 12397; 12398; 12399; 12400; 12401; 12402; 12403; 12404; 12405; 12406; 12407; 12408; 12409; 12410; 12411; 12412; 12413; 12414; 12415; 12416; 12417; 12418; 12419; 12420; 12421; 12422; 12423; 12424; 12425; 12426; 12427; 12428; 12429; 12430; 12431; 12432; 12433; 12434; 12435; 12443; 12444; 12445; 12446; 12449];
  [12450; 12451; 12452; 12453; 12454; 12455; 12456; 12457; 12458; 12459; 12460; 12461; 12462; 12463; 12464; 12465; 12466; 12467; 12468; 12469; 12470; 12471; 12472; 12473; 12474; 12475; 12476; 12477; 12478; 12479; 12480; 12481; 12482; 12483; 12484; 12485; 12486; 12487; 12488; 12489; 12490; 12491; 12492; 12493; 12494; 12495; 12496; 12497; 12498; 12499; 12500; 12501; 12502; 12503; 12504; 12505; 12506; 12507; 12508; 12509; 12510; 12511; 12512; 12513; 12514; 12515; 12516; 12517; 12518; 12519; 12520; 12521; 12522; 12523; 12524; 12525; 12526; 12527; 12528; 12529; 12530; 12531; 12532; 12533; 12534; 12540; 12541; 12542; 12549; 12550; 12551; 12552; 12553; 12554; 12555; 12556; 12557; 12558; 12559; 12560];
  [12561; 12562; 12563; 12564; 12565; 12566; 12567; 12568; 12569; 12570; 12571; 12572; 12573; 12574; 12575; 12576; 12577; 12578; 12579; 12580; 12581; 12582; 12583; 12584; 12585; 12751; 12849; 12963; 13198; 13199; 13212; 13213; 13214; 13217; 13252; 13262; 13265; 13266; 13269; 13434; 13665; 13729; 13859; 13881; 13897; 14001; 14019; 14021; 14053; 14054; 14088; 14093; 14128; 14130; 14144; 14147; 14328; 14381; 14390; 14496; 14540; 14642; 14691; 14849; 14871; 14935; 14950; 15019; 15070; 15147; 15232; 15265; 15298; 15347; 15373; 15580; 15595; 15666; 15675; 15694; 15711; 15749; 15796; 15815; 15848; 15936; 15957; 16040; 16042; 16087; 16132; 16217; 16388; 16600; 16644; 17077; 17148; 17553; 17570; 17605];
  [17641; 17746; 17749; 18342; 18525; 18606; 18653; 18669; 18771; 19255; 19693; 19728; 19968; 19969; 19971; 19975; 19976; 19977; 19978; 19979; 19980; 19981; 19982; 19983; 19984; 19985; 19988; 19989; 19990; 19992; 19993; 19998; 19999; 20006; 20011; 20013; 20014; 20016; 20017; 20018; 20019; 20022; 20024; 20025; 20027; 20028; 20031; 20034; 20035; 20037; 20039; 20040; 20041; 20043; 20045; 20046; 20047; 20050; 20051; 20054; 20056; 20057; 20058; 20060; 20061; 20062; 20063; 20073; 20083; 20094; 20095; 20098; 20099; 20100; 20101; 20102; 20104; 20107; 20108; 20109; 20110; 20113; 20114; 20115; 20116; 20117; 20121; 20123; 20126; 20127; 20128; 20129; 20130; 20132; 20133; 20134; 20136; 20139; 20140; 20141];
  [20142; 20147; 20150; 20151; 20153; 20154; 20160; 20161; 20162; 20163; 20164; 20166; 20167; 20168; 20169; 20170; 20171; 20173; 20180; 20181; 20182; 20183; 20184; 20185; 20186; 20188; 20189; 20190; 20191; 20193; 20195; 20196; 20197; 20200; 20201; 20208; 20209; 20210; 20211; 20212; 20213; 20214; 20215; 20219; 20221; 20223; 20224; 20225; 20226; 20228; 20229; 20232; 20233; 20234; 20235; 20237; 20238; 20239; 20240; 20241; 20242; 20243; 20244; 20245; 20248; 20249; 20253; 20258; 20268; 20269; 20271; 20272; 20275; 20276; 20278; 20280; 20282; 20283; 20284; 20285; 20286; 20287; 20289; 20291; 20294; 20295; 20296; 20297; 20300; 20301; 20302; 20303; 20304; 20305; 20306; 20307; 20308; 20309; 20310; 20311];
  [20312; 20313; 20314; 20315; 20316; 20317; 20318; 20319; 20320; 20321; 20322; 20323; 20324; 20327; 20329; 20330; 20331; 20332; 20334; 20335; 20336; 20339; 20340; 20341; 20342; 20343; 20344; 20345; 20346; 20347; 20348; 20349; 20350; 20351; 20352; 20353; 20354; 20355; 20356; 20357; 20358; 20359; 20360; 20361; 20363; 20365; 20367; 20368; 20369; 20370; 20372; 20373; 20374; 20375; 20376; 20378; 20379; 20380; 20381; 20382; 20395; 20398; 20399; 20402; 20403; 20405; 20406; 20407; 20409; 20410; 20411; 20415; 20416; 20417; 20418; 20419; 20420; 20421; 20423; 20425; 20426; 20427; 20429; 20430; 20431; 20432; 20433; 20435; 20436; 20438; 20439; 20440; 20441; 20442; 20443; 20444; 20445; 20446; 20447; 20448];
  [20449; 20460; 20462; 20463; 20465; 20467; 20468; 20469; 20470; 20471; 20472; 20474; 20478; 20480; 20485; 20486; 20487; 20488; 20489; 20491; 20492; 20493; 20494; 20495; 20497; 20498; 20499; 20500; 20501; 20502; 20503; 20504; 20505; 20506; 20507; 20508; 20510; 20511; 20512; 20513; 20514; 20515; 20517; 20518; 20519; 20520; 20521; 20522; 20523; 20524; 20525; 20527; 20528; 20529; 20531; 20533; 20535; 20540; 20544; 20545; 20547; 20549; 20550; 20551; 20552; 20553; 20554; 20555; 20556; 20557; 20558; 20559; 20561; 20563; 20565; 20567; 20570; 20571; 20572; 20573; 20574; 20575; 20576; 20577; 20578; 20579; 20580; 20581; 20584; 20585; 20586; 20587; 20589; 20590; 20591; 20592; 20594; 20595; 20596; 20597];
  [20598; 20599; 20602; 20605; 20608; 20610; 20611; 20613; 20615; 20619; 20620; 20621; 20622; 20624; 20625; 20626; 20628; 20629; 20630; 20632; 20633; 20634; 20635; 20636; 20637; 20638; 20642; 20643; 20652; 20653; 20654; 20655; 20656; 20657; 20658; 20659; 20660; 20661; 20662; 20663; 20664; 20666; 20667; 20669; 20670; 20671; 20673; 20674; 20676; 20677; 20678; 20679; 20680; 20681; 20682; 20683; 20686; 20687; 20689; 20691; 20692; 20693; 20694; 20695; 20698; 20699; 20701; 20704; 20705; 20707; 20708; 20709; 20710; 20711; 20712; 20713; 20714; 20716; 20717; 20718; 20719; 20720; 20721; 20723; 20725; 20726; 20728; 20729; 20731; 20733; 20734; 20735; 20736; 20737; 20738; 20739; 20740; 20741; 20742; 20743];
  [20744; 20745; 20746; 20747; 20748; 20750; 20752; 20753; 20754; 20755; 20756; 20757; 20759; 20760; 20762; 20764; 20767; 20768; 20769; 20770; 20772; 20773; 20774; 20777; 20778; 20781; 20782; 20784; 20785; 20786; 20787; 20788; 20789; 20791; 20792; 20793; 20794; 20795; 20796; 20797; 20799; 20800; 20801; 20803; 20804; 20805; 20806; 20807; 20808; 20809; 20811; 20812; 20813; 20818; 20820; 20821; 20823; 20825; 20826; 20827; 20828; 20829; 20830; 20831; 20832; 20833; 20834; 20835; 20837; 20839; 20840; 20841; 20842; 20843; 20844; 20845; 20846; 20849; 20853; 20854; 20855; 20856; 20860; 20864; 20866; 20871; 20872; 20873; 20874; 20877; 20879; 20881; 20882; 20883; 20884; 20885; 20886; 20887; 20888; 20894];
  [20896; 20898; 20900; 20901; 20906; 20907; 20908; 20912; 20913; 20914; 20915; 20917; 20918; 20919; 20920; 20921; 20924; 20925; 20926; 20932; 20933; 20934; 20935; 20936; 20937; 20938; 20939; 20940; 20941; 20942; 20943; 20944; 20945; 20947; 20948; 20951; 20952; 20956; 20957; 20958; 20959; 20960; 20961; 20962; 20973; 20976; 20977; 20979; 20980; 20981; 20982; 20984; 20985; 20986; 20989; 20992; 20993; 20994; 20995; 20998; 20999; 21000; 21001; 21002; 21003; 21004; 21006; 21008; 21009; 21010; 21011; 21014; 21015; 21020; 21021; 21022; 21025; 21028; 21029; 21030; 21032; 21033; 21034; 21038; 21040; 21041; 21042; 21043; 21045; 21046; 21047; 21048; 21050; 21051; 21052; 21057; 21059; 21060; 21062; 21063];
  [21065; 21066; 21067; 21068; 21069; 21070; 21074; 21076; 21077; 21078; 21079; 21082; 21083; 21084; 21085; 21086; 21087; 21089; 21090; 21097; 21098; 21099; 21100; 21101; 21102; 21103; 21106; 21108; 21109; 21111; 21112; 21114; 21115; 21116; 21117; 21119; 21120; 21121; 21122; 21123; 21124; 21127; 21128; 21129; 21130; 21131; 21132; 21133; 21137; 21139; 21140; 21142; 21143; 21144; 21145; 21147; 21151; 21152; 21155; 21158; 21161; 21162; 21163; 21164; 21165; 21166; 21173; 21177; 21179; 21180; 21182; 21184; 21185; 21186; 21187; 21189; 21191; 21193; 21197; 21200; 21202; 21203; 21205; 21206; 21207; 21208; 21209; 21211; 21213; 21214; 21215; 21216; 21218; 21219; 21220; 21222; 21225; 21227; 21231; 21232];
  [21233; 21235; 21236; 21237; 21239; 21240; 21241; 21242; 21243; 21244; 21246; 21247; 21253; 21254; 21256; 21257; 21258; 21259; 21261; 21262; 21263; 21264; 21265; 21266; 21269; 21270; 21271; 21273; 21274; 21276; 21277; 21279; 21280; 21281; 21282; 21283; 21290; 21293; 21295; 21296; 21297; 21299; 21300; 21303; 21304; 21305; 21308; 21309; 21310; 21311; 21312; 21313; 21313; 21314; 21315; 21316; 21317; 21317; 21319; 21320; 21321; 21322; 21324; 21325; 21329; 21330; 21331; 21332; 21335; 21338; 21340; 21342; 21344; 21345; 21347; 21350; 21353; 21356; 21357; 21358; 21359; 21360; 21361; 21362; 21363; 21364; 21365; 21367; 21368; 21369; 21371; 21372; 21374; 21375; 21378; 21380; 21386; 21390; 21391; 21394];
  [21395; 21396; 21398; 21399; 21400; 21401; 21402; 21404; 21405; 21406; 21407; 21408; 21412; 21413; 21414; 21415; 21416; 21419; 21420; 21421; 21422; 21426; 21428; 21430; 21433; 21435; 21441; 21443; 21445; 21448; 21449; 21450; 21451; 21453; 21460; 21462; 21463; 21465; 21467; 21471; 21472; 21473; 21474; 21475; 21476; 21477; 21478; 21480; 21481; 21482; 21483; 21484; 21485; 21486; 21487; 21488; 21489; 21490; 21491; 21493; 21494; 21496; 21499; 21500; 21502; 21505; 21507; 21508; 21510; 21511; 21512; 21513; 21514; 21515; 21516; 21517; 21518; 21519; 21520; 21521; 21522; 21523; 21528; 21529; 21531; 21532; 21533; 21534; 21535; 21536; 21537; 21540; 21541; 21542; 21543; 21544; 21545; 21546; 21547; 21548];
  [21549; 21550; 21551; 21552; 21553; 21555; 21557; 21558; 21559; 21560; 21561; 21563; 21564; 21565; 21566; 21568; 21569; 21570; 21571; 21573; 21574; 21575; 21576; 21578; 21582; 21583; 21588; 21600; 21601; 21602; 21603; 21604; 21605; 21606; 21607; 21608; 21611; 21612; 21613; 21615; 21616; 21617; 21618; 21619; 21620; 21621; 21622; 21623; 21624; 21626; 21627; 21628; 21629; 21630; 21631; 21632; 21633; 21634; 21636; 21638; 21639; 21640; 21643; 21644; 21645; 21646; 21647; 21648; 21649; 21650; 21653; 21654; 21656; 21658; 21664; 21665; 21666; 21668; 21669; 21670; 21671; 21672; 21673; 21674; 21675; 21676; 21677; 21678; 21679; 21680; 21681; 21683; 21686; 21687; 21688; 21690; 21691; 21692; 21693; 21694];
  [21695; 21696; 21697; 21698; 21699; 21700; 21701; 21702; 21703; 21704; 21705; 21710; 21711; 21718; 21726; 21728; 21729; 21730; 21732; 21733; 21734; 21735; 21736; 21737; 21738; 21739; 21741; 21742; 21745; 21746; 21747; 21751; 21752; 21754; 21755; 21756; 21757; 21759; 21761; 21763; 21764; 21765; 21766; 21767; 21768; 21769; 21770; 21771; 21772; 21774; 21775; 21776; 21777; 21778; 21780; 21783; 21786; 21798; 21799; 21802; 21803; 21804; 21805; 21806; 21807; 21808; 21809; 21810; 21811; 21812; 21813; 21814; 21815; 21816; 21817; 21819; 21820; 21822; 21824; 21825; 21827; 21828; 21829; 21830; 21831; 21832; 21833; 21834; 21835; 21837; 21838; 21839; 21840; 21841; 21842; 21843; 21845; 21846; 21847; 21852];
  [21853; 21854; 21855; 21857; 21858; 21859; 21860; 21861; 21862; 21866; 21877; 21878; 21879; 21883; 21884; 21885; 21886; 21887; 21888; 21889; 21890; 21891; 21892; 21894; 21895; 21896; 21897; 21898; 21899; 21900; 21901; 21902; 21903; 21905; 21906; 21907; 21908; 21909; 21912; 21913; 21914; 21916; 21917; 21919; 21921; 21922; 21923; 21924; 21925; 21926; 21927; 21928; 21929; 21930; 21931; 21932; 21933; 21934; 21937; 21938; 21939; 21941; 21947; 21951; 21952; 21954; 21955; 21956; 21957; 21958; 21959; 21960; 21961; 21962; 21963; 21964; 21965; 21966; 21967; 21968; 21969; 21970; 21971; 21972; 21973; 21974; 21977; 21978; 21979; 21980; 21981; 21983; 21985; 21986; 21987; 21988; 21989; 21990; 21991; 21992];
  [21993; 21999; 22002; 22006; 22007; 22009; 22010; 22012; 22013; 22014; 22015; 22016; 22017; 22018; 22020; 22021; 22022; 22024; 22025; 22028; 22029; 22030; 22031; 22032; 22034; 22035; 22036; 22037; 22038; 22039; 22043; 22044; 22045; 22047; 22055; 22057; 22058; 22060; 22062; 22063; 22064; 22066; 22067; 22068; 22069; 22070; 22071; 22072; 22073; 22074; 22075; 22077; 22078; 22079; 22080; 22081; 22082; 22085; 22086; 22088; 22089; 22090; 22092; 22093; 22094; 22095; 22099; 22103; 22104; 22105; 22106; 22110; 22112; 22114; 22115; 22116; 22117; 22118; 22120; 22121; 22122; 22123; 22124; 22125; 22126; 22127; 22128; 22129; 22130; 22131; 22132; 22134; 22135; 22136; 22137; 22142; 22143; 22144; 22145; 22146];
  [22147; 22148; 22149; 22150; 22151; 22156; 22157; 22158; 22159; 22160; 22163; 22165; 22167; 22168; 22169; 22170; 22172; 22173; 22181; 22182; 22183; 22184; 22186; 22187; 22188; 22189; 22190; 22194; 22195; 22196; 22197; 22198; 22199; 22204; 22205; 22206; 22208; 22209; 22210; 22211; 22213; 22214; 22216; 22217; 22218; 22219; 22220; 22221; 22225; 22227; 22228; 22231; 22234; 22235; 22237; 22238; 22239; 22240; 22241; 22244; 22245; 22247; 22250; 22251; 22253; 22254; 22255; 22256; 22257; 22263; 22265; 22266; 22271; 22272; 22273; 22274; 22275; 22276; 22279; 22280; 22281; 22282; 22283; 22284; 22285; 22290; 22291; 22292; 22294; 22296; 22298; 22299; 22300; 22302; 22303; 22304; 22306; 22307; 22312; 22313];
  [22314; 22316; 22317; 22318; 22319; 22320; 22323; 22324; 22331; 22334; 22336; 22337; 22338; 22339; 22341; 22342; 22343; 22345; 22346; 22347; 22348; 22349; 22350; 22351; 22352; 22353; 22354; 22369; 22370; 22372; 22374; 22376; 22377; 22378; 22379; 22381; 22383; 22384; 22385; 22386; 22387; 22388; 22389; 22390; 22391; 22395; 22396; 22397; 22400; 22402; 22403; 22411; 22412; 22415; 22416; 22419; 22420; 22421; 22423; 22424; 22425; 22426; 22427; 22429; 22430; 22431; 22432; 22434; 22435; 22436; 22437; 22446; 22453; 22454; 22456; 22457; 22458; 22460; 22461; 22463; 22465; 22466; 22467; 22470; 22471; 22475; 22476; 22478; 22479; 22480; 22482; 22484; 22485; 22492; 22495; 22496; 22497; 22498; 22499; 22500];
  [22501; 22502; 22503; 22505; 22508; 22509; 22510; 22512; 22513; 22514; 22515; 22516; 22517; 22518; 22519; 22520; 22521; 22522; 22523; 22524; 22525; 22526; 22528; 22529; 22530; 22531; 22532; 22533; 22534; 22535; 22536; 22537; 22538; 22539; 22540; 22541; 22542; 22544; 22548; 22553; 22555; 22556; 22557; 22558; 22560; 22561; 22563; 22564; 22565; 22566; 22567; 22568; 22569; 22570; 22572; 22573; 22574; 22575; 22576; 22577; 22578; 22579; 22580; 22581; 22582; 22583; 22584; 22585; 22587; 22589; 22591; 22600; 22601; 22602; 22603; 22604; 22605; 22606; 22607; 22609; 22610; 22611; 22612; 22613; 22615; 22616; 22617; 22618; 22619; 22620; 22621; 22622; 22626; 22627; 22628; 22629; 22632; 22635; 22637; 22639];
  [22641; 22644; 22645; 22646; 22649; 22650; 22651; 22652; 22653; 22654; 22655; 22656; 22657; 22658; 22659; 22661; 22662; 22663; 22664; 22665; 22666; 22667; 22670; 22671; 22672; 22673; 22675; 22676; 22680; 22684; 22685; 22686; 22687; 22688; 22689; 22691; 22693; 22694; 22696; 22697; 22698; 22699; 22700; 22702; 22703; 22705; 22707; 22714; 22715; 22716; 22717; 22718; 22719; 22721; 22722; 22725; 22726; 22727; 22728; 22729; 22734; 22735; 22737; 22738; 22739; 22740; 22741; 22742; 22744; 22745; 22746; 22747; 22748; 22749; 22750; 22751; 22752; 22754; 22755; 22756; 22759; 22760; 22761; 22763; 22764; 22767; 22772; 22777; 22778; 22779; 22780; 22781; 22782; 22783; 22787; 22790; 22794; 22796; 22797; 22798];
  [22799; 22801; 22802; 22804; 22805; 22806; 22807; 22809; 22810; 22812; 22815; 22816; 22818; 22820; 22821; 22823; 22825; 22826; 22827; 22828; 22829; 22830; 22831; 22833; 22839; 22840; 22844; 22846; 22848; 22852; 22853; 22855; 22856; 22857; 22858; 22862; 22863; 22864; 22865; 22867; 22868; 22869; 22871; 22872; 22874; 22876; 22880; 22881; 22882; 22887; 22889; 22890; 22891; 22893; 22894; 22896; 22897; 22898; 22899; 22900; 22902; 22903; 22904; 22905; 22907; 22908; 22909; 22910; 22911; 22912; 22913; 22914; 22915; 22916; 22917; 22922; 22925; 22926; 22927; 22928; 22930; 22931; 22934; 22935; 22936; 22937; 22941; 22942; 22944; 22945; 22946; 22947; 22948; 22949; 22950; 22951; 22952; 22958; 22959; 22961];
  [22962; 22963; 22964; 22965; 22966; 22969; 22970; 22971; 22972; 22973; 22974; 22976; 22977; 22979; 22981; 22982; 22983; 22984; 22985; 22986; 22987; 22988; 22989; 22990; 22991; 22992; 22993; 22994; 22995; 22996; 22998; 23000; 23001; 23002; 23003; 23004; 23005; 23006; 23008; 23009; 23011; 23012; 23013; 23014; 23016; 23017; 23018; 23020; 23021; 23022; 23025; 23026; 23027; 23028; 23029; 23030; 23031; 23033; 23034; 23035; 23036; 23037; 23038; 23039; 23040; 23041; 23043; 23049; 23050; 23052; 23055; 23057; 23059; 23061; 23062; 23063; 23064; 23065; 23067; 23068; 23070; 23071; 23072; 23075; 23076; 23077; 23081; 23085; 23086; 23091; 23093; 23094; 23095; 23096; 23097; 23100; 23102; 23104; 23105; 23106];
  [23107; 23108; 23110; 23111; 23112; 23113; 23114; 23116; 23117; 23120; 23121; 23122; 23123; 23125; 23126; 23127; 23128; 23130; 23131; 23132; 23133; 23134; 23135; 23136; 23138; 23139; 23140; 23141; 23142; 23143; 23145; 23146; 23148; 23149; 23152; 23159; 23160; 23162; 23163; 23164; 23165; 23167; 23171; 23172; 23176; 23178; 23179; 23180; 23182; 23183; 23184; 23185; 23186; 23187; 23188; 23189; 23190; 23191; 23194; 23195; 23196; 23197; 23198; 23199; 23200; 23202; 23205; 23206; 23207; 23209; 23211; 23212; 23214; 23215; 23216; 23217; 23218; 23219; 23220; 23221; 23222; 23223; 23224; 23225; 23226; 23227; 23228; 23229; 23230; 23231; 23232; 23233; 23234; 23236; 23238; 23239; 23240; 23241; 23242; 23243];
  [23244; 23245; 23251; 23253; 23254; 23255; 23256; 23257; 23258; 23259; 23260; 23261; 23262; 23263; 23264; 23265; 23266; 23267; 23269; 23270; 23272; 23273; 23274; 23275; 23276; 23277; 23278; 23283; 23284; 23285; 23286; 23287; 23288; 23289; 23290; 23291; 23293; 23295; 23297; 23298; 23299; 23301; 23303; 23304; 23305; 23307; 23308; 23311; 23312; 23315; 23316; 23318; 23319; 23321; 23322; 23323; 23325; 23326; 23328; 23329; 23331; 23332; 23333; 23334; 23335; 23336; 23338; 23340; 23341; 23342; 23343; 23344; 23346; 23348; 23352; 23356; 23357; 23358; 23359; 23360; 23363; 23365; 23366; 23367; 23368; 23371; 23372; 23373; 23374; 23376; 23377; 23379; 23380; 23381; 23382; 23383; 23384; 23386; 23387; 23388];
  [23389; 23391; 23394; 23395; 23396; 23397; 23401; 23403; 23404; 23406; 23408; 23409; 23410; 23411; 23413; 23414; 23415; 23416; 23418; 23419; 23420; 23421; 23423; 23424; 23425; 23426; 23427; 23428; 23429; 23431; 23432; 23433; 23435; 23436; 23438; 23439; 23442; 23443; 23445; 23447; 23448; 23449; 23450; 23451; 23452; 23453; 23458; 23459; 23460; 23461; 23462; 23463; 23464; 23466; 23468; 23469; 23470; 23472; 23475; 23476; 23477; 23478; 23480; 23481; 23487; 23488; 23489; 23490; 23492; 23493; 23494; 23495; 23498; 23499; 23500; 23501; 23502; 23504; 23505; 23506; 23507; 23508; 23509; 23510; 23511; 23512; 23513; 23518; 23519; 23520; 23521; 23522; 23523; 23524; 23525; 23526; 23527; 23528; 23529; 23530];
  [23531; 23532; 23534; 23535; 23536; 23537; 23538; 23539; 23541; 23542; 23544; 23546; 23551; 23553; 23555; 23556; 23557; 23559; 23560; 23561; 23562; 23563; 23564; 23565; 23566; 23567; 23568; 23569; 23570; 23571; 23572; 23573; 23574; 23578; 23583; 23586; 23588; 23589; 23592; 23594; 23596; 23600; 23601; 23603; 23607; 23608; 23609; 23610; 23611; 23612; 23614; 23615; 23616; 23617; 23620; 23621; 23622; 23623; 23624; 23625; 23627; 23628; 23629; 23630; 23631; 23632; 23633; 23636; 23637; 23638; 23640; 23641; 23644; 23645; 23648; 23650; 23651; 23652; 23653; 23655; 23656; 23657; 23658; 23660; 23661; 23662; 23663; 23665; 23667; 23668; 23673; 23674; 23675; 23676; 23678; 23685; 23686; 23688; 23689; 23690];
  [23691; 23692; 23693; 23695; 23696; 23697; 23698; 23699; 23700; 23701; 23708; 23709; 23711; 23712; 23713; 23714; 23715; 23716; 23717; 23718; 23719; 23720; 23721; 23722; 23723; 23724; 23725; 23726; 23727; 23728; 23729; 23731; 23733; 23734; 23735; 23736; 23738; 23750; 23751; 23752; 23753; 23754; 23755; 23756; 23758; 23759; 23760; 23762; 23763; 23764; 23766; 23767; 23768; 23769; 23770; 23771; 23774; 23775; 23784; 23785; 23786; 23788; 23789; 23790; 23791; 23792; 23793; 23796; 23798; 23799; 23800; 23801; 23803; 23805; 23807; 23808; 23809; 23814; 23815; 23819; 23820; 23821; 23822; 23823; 23824; 23825; 23826; 23828; 23830; 23831; 23832; 23833; 23834; 23835; 23837; 23838; 23839; 23840; 23842; 23843];
  [23844; 23845; 23846; 23847; 23848; 23849; 23854; 23856; 23857; 23858; 23859; 23860; 23861; 23862; 23863; 23864; 23865; 23866; 23868; 23869; 23871; 23872; 23873; 23874; 23875; 23877; 23878; 23879; 23881; 23882; 23883; 23884; 23886; 23888; 23889; 23890; 23893; 23897; 23902; 23906; 23907; 23909; 23911; 23912; 23913; 23915; 23916; 23919; 23921; 23922; 23927; 23929; 23930; 23932; 23933; 23934; 23935; 23936; 23937; 23938; 23940; 23942; 23943; 23944; 23945; 23946; 23947; 23949; 23954; 23955; 23956; 23957; 23959; 23961; 23962; 23964; 23965; 23966; 23967; 23968; 23969; 23970; 23975; 23976; 23977; 23978; 23980; 23981; 23982; 23983; 23984; 23985; 23986; 23988; 23989; 23990; 23991; 23992; 23994; 23996];
  [23997; 24000; 24002; 24003; 24006; 24007; 24009; 24011; 24013; 24015; 24017; 24018; 24020; 24021; 24022; 24023; 24024; 24027; 24029; 24030; 24031; 24032; 24033; 24034; 24037; 24038; 24039; 24040; 24043; 24046; 24048; 24049; 24050; 24051; 24052; 24055; 24057; 24061; 24062; 24063; 24066; 24067; 24068; 24070; 24073; 24074; 24076; 24078; 24081; 24084; 24085; 24086; 24087; 24088; 24089; 24090; 24091; 24093; 24095; 24096; 24097; 24098; 24099; 24100; 24101; 24104; 24105; 24107; 24109; 24110; 24115; 24116; 24118; 24119; 24120; 24125; 24126; 24128; 24129; 24131; 24132; 24133; 24138; 24139; 24140; 24141; 24142; 24143; 24147; 24148; 24149; 24151; 24152; 24153; 24155; 24156; 24157; 24159; 24160; 24161];
  [24162; 24163; 24166; 24167; 24168; 24169; 24170; 24171; 24172; 24173; 24174; 24175; 24176; 24178; 24179; 24180; 24181; 24182; 24184; 24185; 24186; 24187; 24188; 24189; 24190; 24191; 24192; 24194; 24195; 24196; 24199; 24200; 24201; 24202; 24203; 24204; 24205; 24207; 24213; 24214; 24215; 24218; 24219; 24220; 24224; 24226; 24227; 24228; 24229; 24230; 24231; 24232; 24234; 24235; 24236; 24237; 24238; 24240; 24241; 24242; 24243; 24244; 24245; 24246; 24247; 24248; 24249; 24254; 24257; 24258; 24260; 24261; 24262; 24263; 24264; 24265; 24266; 24267; 24268; 24270; 24272; 24273; 24274; 24275; 24276; 24277; 24278; 24279; 24280; 24281; 24282; 24283; 24284; 24285; 24286; 24287; 24288; 24289; 24290; 24291];
  [24293; 24294; 24295; 24296; 24297; 24300; 24302; 24303; 24305; 24306; 24307; 24308; 24310; 24311; 24313; 24314; 24315; 24316; 24318; 24319; 24321; 24322; 24324; 24325; 24327; 24328; 24330; 24331; 24333; 24335; 24338; 24339; 24340; 24341; 24343; 24344; 24346; 24347; 24349; 24351; 24354; 24355; 24356; 24358; 24359; 24360; 24361; 24365; 24366; 24368; 24369; 24371; 24373; 24374; 24375; 24376; 24378; 24380; 24384; 24387; 24388; 24390; 24392; 24393; 24394; 24395; 24396; 24398; 24399; 24400; 24404; 24406; 24407; 24408; 24409; 24413; 24417; 24418; 24419; 24420; 24421; 24423; 24425; 24426; 24427; 24428; 24429; 24431; 24432; 24433; 24434; 24435; 24436; 24438; 24439; 24440; 24441; 24443; 24444; 24445];
  [24446; 24447; 24448; 24449; 24450; 24453; 24454; 24455; 24456; 24457; 24458; 24459; 24460; 24464; 24465; 24466; 24470; 24471; 24472; 24473; 24475; 24476; 24478; 24479; 24480; 24481; 24484; 24485; 24486; 24487; 24488; 24489; 24490; 24491; 24492; 24493; 24494; 24495; 24498; 24501; 24502; 24503; 24505; 24507; 24508; 24509; 24510; 24511; 24512; 24513; 24515; 24517; 24521; 24524; 24525; 24527; 24528; 24529; 24530; 24532; 24533; 24534; 24535; 24536; 24537; 24541; 24542; 24543; 24544; 24545; 24547; 24548; 24549; 24552; 24554; 24555; 24557; 24558; 24559; 24561; 24563; 24564; 24565; 24567; 24568; 24570; 24571; 24573; 24575; 24576; 24585; 24586; 24587; 24588; 24589; 24590; 24591; 24592; 24593; 24594];
  [24595; 24596; 24597; 24598; 24599; 24601; 24602; 24603; 24604; 24605; 24606; 24608; 24609; 24610; 24611; 24612; 24613; 24614; 24615; 24616; 24617; 24618; 24619; 24620; 24621; 24622; 24623; 24625; 24626; 24627; 24628; 24629; 24631; 24633; 24640; 24641; 24642; 24643; 24644; 24645; 24646; 24647; 24649; 24650; 24652; 24653; 24656; 24658; 24659; 24660; 24661; 24664; 24665; 24666; 24667; 24669; 24670; 24671; 24674; 24675; 24676; 24677; 24678; 24679; 24680; 24681; 24682; 24683; 24684; 24685; 24686; 24687; 24688; 24690; 24703; 24704; 24705; 24707; 24708; 24709; 24710; 24711; 24712; 24713; 24714; 24716; 24717; 24718; 24720; 24722; 24724; 24725; 24726; 24727; 24730; 24731; 24732; 24733; 24734; 24735];
  [24736; 24738; 24739; 24740; 24744; 24752; 24753; 24754; 24755; 24756; 24757; 24758; 24759; 24760; 24761; 24762; 24763; 24764; 24765; 24766; 24767; 24768; 24769; 24771; 24772; 24773; 24774; 24775; 24776; 24777; 24778; 24779; 24780; 24781; 24782; 24783; 24785; 24787; 24788; 24789; 24792; 24793; 24794; 24795; 24796; 24797; 24798; 24799; 24800; 24801; 24802; 24804; 24806; 24816; 24817; 24818; 24819; 24820; 24821; 24822; 24823; 24824; 24825; 24826; 24827; 24828; 24830; 24831; 24832; 24833; 24835; 24836; 24837; 24838; 24840; 24841; 24842; 24843; 24845; 24846; 24847; 24848; 24850; 24851; 24852; 24853; 24854; 24856; 24858; 24859; 24860; 24861; 24863; 24867; 24871; 24872; 24873; 24875; 24876; 24878];
  [24879; 24882; 24884; 24886; 24887; 24891; 24894; 24895; 24896; 24897; 24898; 24900; 24901; 24902; 24903; 24904; 24905; 24906; 24907; 24908; 24909; 24910; 24911; 24914; 24915; 24916; 24917; 24918; 24920; 24922; 24923; 24924; 24925; 24926; 24927; 24928; 24929; 24930; 24931; 24932; 24933; 24934; 24935; 24936; 24938; 24939; 24940; 24942; 24944; 24945; 24946; 24947; 24948; 24949; 24950; 24951; 24953; 24954; 24956; 24958; 24960; 24961; 24962; 24963; 24967; 24969; 24970; 24971; 24972; 24973; 24974; 24976; 24977; 24978; 24979; 24980; 24982; 24986; 24987; 24989; 24991; 24993; 24994; 24996; 24999; 25000; 25001; 25002; 25003; 25004; 25005; 25006; 25007; 25008; 25009; 25010; 25011; 25012; 25013; 25014];
  [25016; 25018; 25020; 25022; 25023; 25025; 25026; 25027; 25029; 25030; 25031; 25032; 25033; 25034; 25035; 25036; 25037; 25040; 25043; 25046; 25048; 25054; 25055; 25056; 25059; 25060; 25061; 25062; 25063; 25064; 25065; 25066; 25067; 25069; 25070; 25072; 25073; 25074; 25077; 25078; 25079; 25080; 25081; 25082; 25083; 25084; 25085; 25086; 25087; 25088; 25089; 25091; 25092; 25095; 25096; 25097; 25098; 25100; 25101; 25102; 25104; 25105; 25106; 25108; 25109; 25110; 25113; 25114; 25115; 25119; 25120; 25121; 25122; 25123; 25124; 25125; 25127; 25129; 25130; 25131; 25133; 25134; 25136; 25138; 25139; 25140; 25142; 25146; 25149; 25150; 25151; 25152; 25153; 25154; 25155; 25158; 25159; 25160; 25161; 25162];
  [25163; 25165; 25166; 25168; 25169; 25170; 25171; 25172; 25176; 25177; 25178; 25179; 25180; 25182; 25184; 25185; 25186; 25187; 25188; 25189; 25190; 25197; 25198; 25199; 25200; 25201; 25202; 25203; 25204; 25206; 25207; 25209; 25210; 25211; 25212; 25213; 25214; 25215; 25216; 25217; 25219; 25220; 25222; 25223; 25224; 25225; 25226; 25228; 25230; 25231; 25233; 25234; 25235; 25236; 25237; 25238; 25239; 25240; 25256; 25257; 25258; 25259; 25260; 25261; 25262; 25263; 25264; 25265; 25267; 25268; 25269; 25270; 25272; 25273; 25275; 25276; 25277; 25278; 25279; 25282; 25284; 25285; 25286; 25287; 25288; 25289; 25290; 25291; 25292; 25293; 25294; 25295; 25296; 25297; 25298; 25299; 25300; 25301; 25302; 25303];
  [25304; 25305; 25306; 25307; 25308; 25311; 25323; 25324; 25325; 25326; 25327; 25328; 25329; 25330; 25331; 25332; 25333; 25334; 25335; 25336; 25337; 25338; 25339; 25340; 25341; 25342; 25343; 25344; 25345; 25346; 25347; 25351; 25352; 25353; 25355; 25356; 25357; 25358; 25359; 25360; 25361; 25363; 25364; 25365; 25366; 25384; 25385; 25386; 25387; 25388; 25389; 25391; 25394; 25395; 25396; 25398; 25400; 25401; 25402; 25403; 25404; 25405; 25406; 25408; 25409; 25410; 25411; 25412; 25413; 25414; 25415; 25416; 25417; 25418; 25419; 25420; 25421; 25422; 25423; 25424; 25425; 25428; 25429; 25430; 25431; 25432; 25433; 25434; 25445; 25447; 25448; 25449; 25451; 25452; 25453; 25454; 25455; 25456; 25457; 25458];
  [25461; 25462; 25463; 25464; 25466; 25467; 25468; 25469; 25472; 25473; 25474; 25475; 25476; 25477; 25479; 25480; 25481; 25482; 25483; 25484; 25485; 25486; 25487; 25488; 25489; 25490; 25492; 25494; 25495; 25496; 25497; 25499; 25500; 25501; 25502; 25503; 25504; 25505; 25506; 25507; 25508; 25509; 25511; 25512; 25513; 25514; 25515; 25516; 25517; 25518; 25519; 25520; 25521; 25533; 25534; 25536; 25538; 25539; 25540; 25541; 25542; 25543; 25544; 25545; 25546; 25547; 25548; 25549; 25550; 25551; 25552; 25554; 25555; 25557; 25558; 25559; 25560; 25561; 25562; 25563; 25564; 25565; 25567; 25568; 25569; 25571; 25572; 25573; 25575; 25576; 25577; 25578; 25579; 25581; 25582; 25583; 25584; 25585; 25586; 25587];
  [25588; 25589; 25590; 25592; 25593; 25606; 25609; 25610; 25611; 25612; 25613; 25614; 25615; 25616; 25618; 25619; 25620; 25621; 25622; 25623; 25624; 25626; 25627; 25628; 25630; 25631; 25632; 25633; 25634; 25635; 25636; 25637; 25638; 25639; 25640; 25642; 25643; 25644; 25645; 25646; 25647; 25648; 25651; 25652; 25653; 25654; 25655; 25656; 25657; 25658; 25661; 25662; 25663; 25664; 25665; 25667; 25675; 25677; 25678; 25680; 25681; 25682; 25683; 25684; 25688; 25689; 25691; 25692; 25693; 25694; 25695; 25696; 25697; 25701; 25702; 25703; 25704; 25705; 25707; 25708; 25709; 25710; 25711; 25712; 25714; 25715; 25716; 25717; 25718; 25719; 25720; 25721; 25722; 25723; 25725; 25727; 25730; 25733; 25735; 25736];
  [25737; 25738; 25739; 25740; 25743; 25744; 25746; 25747; 25749; 25750; 25751; 25752; 25753; 25754; 25756; 25757; 25758; 25759; 25760; 25762; 25763; 25764; 25765; 25766; 25769; 25771; 25772; 25773; 25774; 25775; 25776; 25777; 25778; 25779; 25787; 25788; 25789; 25790; 25791; 25793; 25794; 25795; 25796; 25797; 25799; 25801; 25802; 25803; 25805; 25806; 25807; 25808; 25810; 25812; 25814; 25815; 25816; 25817; 25818; 25819; 25824; 25825; 25826; 25827; 25828; 25829; 25830; 25832; 25833; 25835; 25836; 25837; 25839; 25840; 25841; 25842; 25843; 25844; 25847; 25848; 25850; 25851; 25852; 25853; 25854; 25855; 25856; 25857; 25859; 25860; 25862; 25863; 25865; 25868; 25869; 25870; 25871; 25872; 25875; 25876];
  [25877; 25878; 25879; 25880; 25881; 25883; 25884; 25885; 25886; 25888; 25889; 25890; 25891; 25892; 25893; 25894; 25897; 25898; 25899; 25900; 25901; 25902; 25903; 25906; 25907; 25908; 25910; 25911; 25912; 25913; 25915; 25917; 25918; 25919; 25921; 25923; 25925; 25926; 25928; 25929; 25930; 25933; 25935; 25937; 25939; 25940; 25941; 25942; 25943; 25944; 25945; 25948; 25949; 25950; 25951; 25954; 25955; 25956; 25957; 25958; 25959; 25960; 25962; 25964; 25965; 25967; 25970; 25971; 25972; 25973; 25974; 25975; 25976; 25977; 25978; 25979; 25980; 25983; 25984; 25985; 25986; 25987; 25988; 25989; 25991; 25992; 25996; 26000; 26001; 26002; 26004; 26005; 26006; 26007; 26009; 26011; 26012; 26013; 26014; 26015];
  [26016; 26017; 26018; 26020; 26021; 26023; 26024; 26026; 26027; 26028; 26030; 26031; 26032; 26034; 26035; 26037; 26038; 26039; 26040; 26041; 26043; 26044; 26045; 26047; 26049; 26050; 26051; 26052; 26053; 26054; 26059; 26060; 26061; 26062; 26063; 26064; 26065; 26066; 26067; 26070; 26071; 26074; 26075; 26077; 26078; 26079; 26080; 26081; 26082; 26083; 26085; 26086; 26088; 26089; 26092; 26093; 26094; 26095; 26096; 26097; 26098; 26099; 26100; 26101; 26106; 26107; 26108; 26109; 26112; 26114; 26115; 26116; 26117; 26118; 26119; 26120; 26121; 26122; 26123; 26124; 26125; 26126; 26127; 26128; 26129; 26130; 26131; 26132; 26133; 26136; 26140; 26141; 26143; 26144; 26145; 26146; 26147; 26148; 26149; 26150];
  [26151; 26152; 26155; 26157; 26158; 26159; 26161; 26162; 26163; 26164; 26165; 26166; 26169; 26170; 26177; 26178; 26179; 26180; 26181; 26183; 26185; 26186; 26187; 26188; 26191; 26193; 26194; 26199; 26201; 26202; 26203; 26204; 26205; 26206; 26207; 26209; 26210; 26212; 26213; 26214; 26215; 26216; 26218; 26220; 26222; 26223; 26224; 26225; 26226; 26227; 26228; 26230; 26231; 26232; 26233; 26234; 26235; 26236; 26238; 26240; 26244; 26245; 26246; 26247; 26248; 26249; 26250; 26251; 26252; 26253; 26256; 26257; 26260; 26261; 26262; 26263; 26264; 26265; 26269; 26271; 26272; 26273; 26274; 26276; 26280; 26281; 26282; 26283; 26285; 26286; 26287; 26288; 26289; 26290; 26291; 26292; 26293; 26295; 26296; 26297];
  [26298; 26299; 26301; 26302; 26304; 26308; 26310; 26311; 26312; 26313; 26314; 26315; 26316; 26317; 26319; 26322; 26326; 26328; 26329; 26330; 26331; 26332; 26333; 26334; 26336; 26339; 26340; 26342; 26344; 26345; 26347; 26348; 26349; 26350; 26352; 26354; 26355; 26356; 26358; 26359; 26360; 26361; 26364; 26366; 26367; 26368; 26369; 26370; 26371; 26372; 26373; 26376; 26377; 26378; 26379; 26381; 26383; 26384; 26386; 26387; 26388; 26389; 26391; 26392; 26395; 26397; 26399; 26400; 26401; 26402; 26403; 26406; 26407; 26408; 26410; 26411; 26412; 26413; 26414; 26417; 26419; 26420; 26421; 26424; 26425; 26426; 26427; 26428; 26429; 26430; 26431; 26436; 26437; 26438; 26439; 26440; 26441; 26443; 26444; 26445];
  [26446; 26447; 26448; 26449; 26451; 26453; 26454; 26455; 26457; 26458; 26460; 26461; 26462; 26463; 26464; 26466; 26471; 26474; 26476; 26477; 26479; 26480; 26481; 26482; 26483; 26484; 26485; 26486; 26487; 26488; 26489; 26490; 26491; 26492; 26493; 26494; 26495; 26497; 26499; 26500; 26501; 26502; 26503; 26505; 26507; 26508; 26509; 26510; 26512; 26513; 26514; 26515; 26516; 26517; 26519; 26520; 26521; 26522; 26524; 26525; 26527; 26540; 26542; 26543; 26544; 26545; 26546; 26547; 26548; 26549; 26550; 26551; 26552; 26553; 26554; 26555; 26560; 26561; 26562; 26563; 26564; 26565; 26566; 26568; 26569; 26570; 26571; 26572; 26573; 26574; 26575; 26576; 26577; 26578; 26579; 26580; 26583; 26584; 26585; 26586];
  [26587; 26588; 26589; 26590; 26591; 26594; 26595; 26596; 26597; 26598; 26599; 26601; 26602; 26603; 26604; 26605; 26606; 26607; 26608; 26609; 26610; 26611; 26612; 26613; 26614; 26615; 26616; 26618; 26620; 26623; 26625; 26637; 26642; 26643; 26644; 26646; 26647; 26648; 26650; 26651; 26652; 26653; 26655; 26656; 26657; 26658; 26661; 26662; 26664; 26665; 26666; 26667; 26669; 26670; 26671; 26673; 26674; 26675; 26676; 26677; 26679; 26680; 26681; 26682; 26683; 26684; 26685; 26686; 26688; 26689; 26690; 26691; 26692; 26693; 26694; 26696; 26697; 26699; 26700; 26701; 26702; 26703; 26704; 26705; 26707; 26708; 26717; 26731; 26733; 26734; 26735; 26737; 26738; 26740; 26741; 26742; 26743; 26744; 26745; 26747];
  [26748; 26749; 26750; 26751; 26752; 26753; 26754; 26755; 26757; 26758; 26759; 26761; 26762; 26763; 26764; 26767; 26768; 26769; 26770; 26771; 26772; 26774; 26775; 26779; 26780; 26781; 26783; 26784; 26785; 26786; 26787; 26788; 26790; 26791; 26792; 26793; 26794; 26795; 26796; 26797; 26798; 26799; 26800; 26801; 26802; 26803; 26804; 26805; 26813; 26819; 26820; 26822; 26823; 26824; 26825; 26826; 26827; 26828; 26829; 26830; 26832; 26833; 26834; 26835; 26836; 26837; 26838; 26839; 26840; 26842; 26844; 26845; 26846; 26847; 26848; 26849; 26851; 26852; 26854; 26855; 26856; 26857; 26858; 26859; 26860; 26862; 26863; 26864; 26865; 26866; 26867; 26868; 26869; 26870; 26871; 26872; 26873; 26874; 26875; 26876];
  [26877; 26880; 26881; 26882; 26883; 26884; 26885; 26886; 26887; 26888; 26890; 26891; 26892; 26893; 26894; 26895; 26896; 26897; 26898; 26899; 26900; 26901; 26903; 26917; 26922; 26927; 26928; 26930; 26931; 26932; 26933; 26934; 26935; 26936; 26937; 26939; 26940; 26941; 26942; 26943; 26944; 26945; 26946; 26948; 26949; 26952; 26953; 26954; 26955; 26956; 26958; 26959; 26961; 26962; 26963; 26964; 26966; 26967; 26968; 26969; 26970; 26971; 26972; 26973; 26974; 26975; 26976; 26977; 26978; 26979; 26981; 26982; 26984; 26985; 26986; 26987; 26988; 26989; 26990; 26991; 26992; 26993; 26995; 26996; 26997; 26998; 26999; 27000; 27001; 27002; 27003; 27010; 27011; 27014; 27021; 27022; 27024; 27025; 27027; 27028];
  [27029; 27030; 27031; 27032; 27033; 27034; 27035; 27036; 27038; 27040; 27041; 27043; 27044; 27045; 27046; 27047; 27048; 27049; 27050; 27051; 27052; 27053; 27054; 27055; 27056; 27057; 27059; 27060; 27061; 27062; 27063; 27065; 27067; 27068; 27069; 27070; 27071; 27073; 27074; 27075; 27076; 27078; 27081; 27082; 27083; 27084; 27085; 27086; 27087; 27088; 27091; 27092; 27097; 27105; 27106; 27108; 27109; 27110; 27111; 27112; 27115; 27116; 27117; 27118; 27121; 27122; 27123; 27124; 27126; 27127; 27128; 27129; 27130; 27131; 27132; 27133; 27134; 27135; 27136; 27137; 27138; 27140; 27141; 27142; 27143; 27144; 27145; 27146; 27147; 27149; 27151; 27153; 27155; 27156; 27157; 27158; 27159; 27160; 27161; 27163];
  [27165; 27166; 27167; 27168; 27169; 27171; 27173; 27174; 27175; 27176; 27180; 27186; 27188; 27189; 27192; 27193; 27194; 27195; 27196; 27197; 27198; 27199; 27200; 27201; 27204; 27205; 27206; 27207; 27208; 27209; 27211; 27213; 27214; 27215; 27216; 27217; 27220; 27221; 27222; 27224; 27225; 27226; 27227; 27229; 27230; 27231; 27232; 27233; 27234; 27236; 27238; 27239; 27240; 27241; 27242; 27243; 27245; 27247; 27254; 27262; 27263; 27264; 27265; 27267; 27268; 27269; 27271; 27273; 27274; 27276; 27277; 27278; 27280; 27281; 27282; 27283; 27284; 27285; 27286; 27287; 27290; 27291; 27292; 27293; 27294; 27295; 27296; 27297; 27298; 27299; 27300; 27301; 27302; 27304; 27308; 27309; 27310; 27311; 27315; 27316];
  [27318; 27319; 27320; 27321; 27322; 27323; 27325; 27330; 27331; 27333; 27334; 27335; 27336; 27339; 27340; 27341; 27343; 27344; 27345; 27347; 27353; 27354; 27355; 27356; 27357; 27358; 27359; 27360; 27361; 27365; 27367; 27368; 27370; 27371; 27372; 27374; 27375; 27376; 27377; 27379; 27384; 27385; 27386; 27387; 27388; 27392; 27394; 27395; 27396; 27400; 27401; 27402; 27403; 27407; 27408; 27409; 27410; 27411; 27414; 27415; 27416; 27417; 27418; 27421; 27422; 27424; 27425; 27427; 27429; 27432; 27436; 27437; 27439; 27441; 27442; 27443; 27444; 27445; 27446; 27447; 27448; 27449; 27450; 27451; 27452; 27453; 27454; 27455; 27457; 27458; 27459; 27461; 27462; 27463; 27464; 27465; 27466; 27467; 27468; 27469];
  [27470; 27472; 27473; 27476; 27477; 27478; 27481; 27483; 27484; 27486; 27487; 27488; 27489; 27490; 27491; 27492; 27493; 27494; 27495; 27498; 27501; 27506; 27508; 27510; 27511; 27512; 27513; 27515; 27518; 27519; 27520; 27522; 27523; 27524; 27526; 27528; 27529; 27530; 27532; 27533; 27534; 27535; 27537; 27540; 27541; 27542; 27543; 27544; 27545; 27547; 27550; 27551; 27552; 27554; 27555; 27556; 27557; 27558; 27559; 27562; 27563; 27565; 27566; 27567; 27568; 27570; 27571; 27573; 27574; 27575; 27578; 27580; 27581; 27583; 27584; 27587; 27588; 27589; 27590; 27591; 27592; 27593; 27594; 27595; 27596; 27597; 27599; 27600; 27602; 27603; 27604; 27606; 27607; 27608; 27610; 27611; 27612; 27614; 27616; 27617];
  [27618; 27619; 27620; 27622; 27623; 27624; 27627; 27628; 27631; 27632; 27634; 27635; 27639; 27640; 27641; 27643; 27644; 27645; 27646; 27647; 27648; 27649; 27650; 27651; 27652; 27653; 27654; 27656; 27657; 27659; 27660; 27661; 27663; 27664; 27665; 27667; 27668; 27669; 27670; 27672; 27673; 27674; 27675; 27677; 27679; 27680; 27681; 27683; 27684; 27685; 27686; 27687; 27688; 27690; 27691; 27692; 27694; 27695; 27696; 27699; 27700; 27702; 27703; 27704; 27707; 27710; 27711; 27712; 27713; 27714; 27715; 27718; 27721; 27722; 27723; 27724; 27725; 27726; 27727; 27728; 27730; 27732; 27733; 27735; 27737; 27738; 27739; 27740; 27741; 27742; 27743; 27744; 27745; 27749; 27750; 27751; 27752; 27753; 27754; 27755];
  [27757; 27758; 27759; 27760; 27761; 27762; 27763; 27764; 27766; 27768; 27769; 27770; 27771; 27773; 27774; 27776; 27777; 27778; 27779; 27780; 27781; 27782; 27783; 27784; 27785; 27786; 27787; 27788; 27789; 27790; 27791; 27792; 27794; 27795; 27796; 27797; 27798; 27800; 27801; 27802; 27803; 27804; 27805; 27819; 27820; 27821; 27822; 27824; 27825; 27827; 27828; 27830; 27831; 27832; 27833; 27834; 27835; 27836; 27837; 27838; 27839; 27840; 27841; 27842; 27843; 27844; 27845; 27846; 27847; 27849; 27850; 27851; 27852; 27853; 27855; 27856; 27857; 27858; 27859; 27860; 27861; 27862; 27863; 27865; 27866; 27867; 27868; 27869; 27870; 27872; 27873; 27874; 27875; 27877; 27879; 27880; 27881; 27883; 27884; 27885];
  [27886; 27887; 27888; 27889; 27890; 27891; 27893; 27897; 27904; 27905; 27907; 27908; 27911; 27912; 27913; 27914; 27915; 27916; 27917; 27918; 27919; 27920; 27921; 27922; 27926; 27927; 27928; 27929; 27930; 27931; 27933; 27934; 27935; 27936; 27938; 27941; 27943; 27944; 27945; 27946; 27947; 27948; 27949; 27950; 27951; 27952; 27953; 27954; 27955; 27956; 27957; 27958; 27959; 27960; 27961; 27962; 27963; 27964; 27965; 27966; 27967; 27968; 27969; 27970; 27992; 27993; 27994; 27995; 27996; 27998; 27999; 28000; 28001; 28002; 28003; 28004; 28005; 28006; 28007; 28008; 28009; 28010; 28012; 28013; 28014; 28015; 28016; 28017; 28020; 28021; 28022; 28023; 28024; 28025; 28026; 28027; 28028; 28029; 28030; 28031];
  [28032; 28034; 28035; 28036; 28037; 28038; 28039; 28040; 28041; 28042; 28043; 28044; 28045; 28046; 28048; 28049; 28050; 28051; 28052; 28053; 28054; 28055; 28056; 28074; 28075; 28076; 28078; 28079; 28082; 28083; 28084; 28085; 28087; 28088; 28090; 28091; 28092; 28093; 28094; 28095; 28096; 28098; 28100; 28101; 28102; 28103; 28104; 28105; 28106; 28107; 28108; 28109; 28111; 28112; 28113; 28114; 28115; 28116; 28117; 28118; 28119; 28120; 28121; 28122; 28123; 28124; 28125; 28126; 28127; 28128; 28129; 28130; 28131; 28132; 28133; 28134; 28136; 28137; 28138; 28139; 28140; 28141; 28142; 28143; 28144; 28145; 28146; 28147; 28148; 28149; 28150; 28151; 28153; 28154; 28155; 28156; 28157; 28160; 28163; 28165];
  [28185; 28186; 28187; 28188; 28189; 28191; 28192; 28193; 28194; 28195; 28196; 28197; 28198; 28199; 28200; 28202; 28203; 28204; 28205; 28206; 28207; 28208; 28209; 28210; 28211; 28212; 28213; 28214; 28216; 28217; 28218; 28219; 28220; 28221; 28222; 28223; 28224; 28225; 28227; 28228; 28229; 28230; 28231; 28233; 28234; 28235; 28237; 28238; 28239; 28240; 28241; 28242; 28243; 28244; 28245; 28246; 28248; 28249; 28250; 28251; 28252; 28253; 28254; 28255; 28256; 28257; 28258; 28259; 28260; 28261; 28262; 28263; 28264; 28265; 28267; 28270; 28271; 28273; 28274; 28275; 28276; 28279; 28280; 28281; 28284; 28296; 28297; 28301; 28302; 28303; 28304; 28306; 28307; 28308; 28310; 28311; 28312; 28313; 28315; 28316];
  [28317; 28318; 28319; 28320; 28321; 28322; 28323; 28324; 28325; 28326; 28327; 28330; 28331; 28334; 28335; 28336; 28337; 28338; 28339; 28340; 28341; 28342; 28343; 28345; 28346; 28348; 28349; 28350; 28351; 28352; 28353; 28354; 28355; 28356; 28357; 28358; 28359; 28360; 28361; 28362; 28363; 28364; 28365; 28366; 28367; 28368; 28369; 28370; 28371; 28372; 28373; 28374; 28376; 28377; 28379; 28380; 28395; 28396; 28397; 28398; 28399; 28401; 28402; 28404; 28405; 28406; 28407; 28408; 28409; 28410; 28411; 28412; 28413; 28414; 28415; 28416; 28417; 28418; 28419; 28420; 28421; 28422; 28423; 28424; 28425; 28426; 28429; 28430; 28431; 28434; 28435; 28436; 28437; 28438; 28440; 28441; 28442; 28444; 28446; 28447];
  [28448; 28449; 28450; 28451; 28453; 28454; 28455; 28457; 28458; 28459; 28460; 28461; 28462; 28463; 28464; 28465; 28466; 28467; 28469; 28470; 28471; 28472; 28473; 28474; 28475; 28476; 28477; 28478; 28479; 28480; 28481; 28483; 28484; 28494; 28495; 28496; 28497; 28498; 28499; 28500; 28501; 28503; 28504; 28506; 28507; 28508; 28509; 28510; 28511; 28512; 28513; 28514; 28515; 28516; 28518; 28519; 28521; 28522; 28523; 28524; 28525; 28526; 28527; 28528; 28530; 28531; 28532; 28534; 28535; 28536; 28538; 28539; 28540; 28541; 28542; 28543; 28544; 28546; 28548; 28549; 28550; 28551; 28552; 28553; 28554; 28555; 28556; 28557; 28558; 28560; 28562; 28563; 28564; 28565; 28566; 28567; 28573; 28574; 28575; 28576];
  [28577; 28578; 28579; 28580; 28581; 28582; 28583; 28584; 28585; 28586; 28587; 28588; 28589; 28590; 28591; 28592; 28593; 28594; 28595; 28596; 28598; 28600; 28601; 28602; 28604; 28605; 28607; 28608; 28609; 28610; 28611; 28612; 28614; 28615; 28616; 28617; 28618; 28619; 28620; 28621; 28622; 28623; 28627; 28628; 28629; 28632; 28635; 28636; 28637; 28638; 28639; 28640; 28641; 28642; 28643; 28644; 28646; 28647; 28648; 28649; 28651; 28652; 28653; 28654; 28655; 28656; 28657; 28658; 28660; 28663; 28664; 28666; 28667; 28668; 28670; 28671; 28672; 28673; 28676; 28677; 28678; 28679; 28681; 28682; 28683; 28684; 28685; 28686; 28687; 28689; 28692; 28693; 28694; 28695; 28696; 28697; 28698; 28699; 28700; 28701];
  [28703; 28704; 28705; 28706; 28707; 28708; 28710; 28711; 28712; 28713; 28714; 28715; 28719; 28720; 28721; 28722; 28723; 28724; 28725; 28727; 28728; 28729; 28730; 28731; 28732; 28734; 28735; 28736; 28737; 28738; 28739; 28740; 28741; 28742; 28744; 28745; 28746; 28747; 28748; 28753; 28754; 28757; 28758; 28759; 28760; 28762; 28763; 28765; 28766; 28767; 28768; 28769; 28770; 28771; 28772; 28773; 28774; 28776; 28777; 28778; 28779; 28784; 28785; 28788; 28790; 28792; 28793; 28794; 28796; 28797; 28798; 28801; 28802; 28803; 28804; 28805; 28806; 28810; 28811; 28814; 28817; 28818; 28819; 28820; 28821; 28822; 28824; 28825; 28826; 28831; 28833; 28836; 28839; 28841; 28843; 28844; 28845; 28846; 28847; 28848];
  [28849; 28851; 28852; 28853; 28855; 28856; 28858; 28861; 28862; 28869; 28870; 28871; 28872; 28874; 28875; 28876; 28877; 28878; 28879; 28881; 28882; 28883; 28884; 28885; 28886; 28887; 28888; 28889; 28890; 28892; 28893; 28894; 28895; 28896; 28897; 28898; 28900; 28911; 28912; 28915; 28916; 28918; 28919; 28920; 28921; 28922; 28923; 28924; 28925; 28927; 28928; 28930; 28932; 28934; 28937; 28938; 28939; 28940; 28941; 28942; 28944; 28947; 28951; 28953; 28954; 28955; 28956; 28958; 28959; 28960; 28961; 28962; 28963; 28965; 28966; 28968; 28971; 28972; 28974; 28975; 28976; 28977; 28978; 28982; 28986; 28993; 28994; 28995; 28996; 28997; 28998; 28999; 29001; 29002; 29003; 29004; 29005; 29006; 29007; 29008];
  [29010; 29011; 29012; 29014; 29016; 29017; 29018; 29020; 29021; 29022; 29023; 29024; 29025; 29026; 29027; 29028; 29029; 29030; 29031; 29032; 29033; 29034; 29036; 29038; 29040; 29042; 29048; 29051; 29053; 29056; 29057; 29058; 29060; 29061; 29062; 29063; 29065; 29066; 29071; 29072; 29074; 29076; 29078; 29079; 29081; 29082; 29083; 29084; 29085; 29086; 29087; 29088; 29089; 29092; 29093; 29095; 29096; 29097; 29098; 29100; 29103; 29104; 29105; 29106; 29107; 29108; 29109; 29112; 29113; 29114; 29116; 29117; 29118; 29119; 29120; 29121; 29122; 29123; 29124; 29125; 29126; 29127; 29128; 29129; 29130; 29131; 29134; 29135; 29136; 29138; 29140; 29141; 29142; 29144; 29145; 29146; 29147; 29148; 29149; 29151];
  [29152; 29153; 29154; 29156; 29157; 29158; 29159; 29160; 29164; 29165; 29166; 29168; 29169; 29170; 29172; 29176; 29177; 29179; 29180; 29181; 29182; 29183; 29185; 29186; 29187; 29189; 29190; 29191; 29194; 29196; 29197; 29198; 29200; 29203; 29204; 29205; 29209; 29210; 29211; 29213; 29214; 29215; 29218; 29219; 29220; 29222; 29223; 29224; 29225; 29226; 29228; 29229; 29230; 29232; 29237; 29238; 29240; 29241; 29242; 29243; 29245; 29246; 29247; 29248; 29249; 29250; 29252; 29254; 29255; 29256; 29257; 29258; 29259; 29260; 29263; 29266; 29267; 29269; 29270; 29271; 29272; 29273; 29274; 29275; 29277; 29278; 29279; 29280; 29281; 29282; 29283; 29287; 29289; 29290; 29292; 29294; 29295; 29296; 29298; 29299];
  [29300; 29302; 29303; 29304; 29305; 29307; 29308; 29309; 29310; 29311; 29312; 29313; 29314; 29316; 29317; 29318; 29320; 29321; 29323; 29324; 29325; 29326; 29328; 29329; 29330; 29331; 29333; 29334; 29335; 29336; 29338; 29339; 29341; 29342; 29345; 29346; 29347; 29348; 29349; 29350; 29351; 29352; 29353; 29354; 29356; 29358; 29359; 29360; 29364; 29365; 29370; 29373; 29375; 29376; 29377; 29378; 29379; 29380; 29381; 29382; 29385; 29386; 29387; 29388; 29390; 29392; 29393; 29394; 29396; 29398; 29399; 29400; 29401; 29402; 29404; 29407; 29408; 29409; 29411; 29412; 29414; 29416; 29417; 29418; 29419; 29427; 29428; 29430; 29431; 29432; 29433; 29434; 29435; 29436; 29437; 29438; 29439; 29440; 29441; 29447];
  [29448; 29450; 29451; 29452; 29455; 29457; 29458; 29459; 29462; 29463; 29464; 29465; 29467; 29468; 29469; 29470; 29474; 29475; 29477; 29478; 29479; 29480; 29481; 29482; 29483; 29485; 29486; 29488; 29489; 29490; 29491; 29492; 29493; 29494; 29495; 29498; 29499; 29500; 29502; 29503; 29504; 29506; 29507; 29508; 29509; 29513; 29514; 29516; 29517; 29518; 29520; 29521; 29522; 29527; 29528; 29529; 29530; 29531; 29533; 29534; 29535; 29536; 29537; 29538; 29541; 29542; 29543; 29544; 29545; 29546; 29547; 29548; 29550; 29551; 29552; 29554; 29555; 29557; 29558; 29559; 29560; 29562; 29563; 29564; 29565; 29566; 29567; 29568; 29569; 29570; 29571; 29572; 29573; 29574; 29575; 29576; 29577; 29578; 29579; 29582];
  [29586; 29587; 29588; 29589; 29590; 29591; 29596; 29597; 29599; 29600; 29601; 29602; 29604; 29605; 29606; 29607; 29608; 29609; 29610; 29611; 29612; 29613; 29618; 29619; 29620; 29621; 29622; 29623; 29624; 29625; 29627; 29628; 29630; 29631; 29632; 29634; 29635; 29637; 29638; 29639; 29640; 29641; 29642; 29643; 29644; 29645; 29646; 29647; 29650; 29651; 29652; 29653; 29654; 29655; 29656; 29657; 29658; 29659; 29660; 29661; 29662; 29664; 29667; 29668; 29669; 29671; 29672; 29673; 29674; 29675; 29677; 29678; 29679; 29684; 29685; 29686; 29687; 29688; 29690; 29692; 29693; 29694; 29695; 29696; 29697; 29699; 29700; 29701; 29702; 29703; 29704; 29705; 29706; 29707; 29708; 29709; 29717; 29718; 29719; 29722];
  [29723; 29725; 29728; 29729; 29730; 29731; 29732; 29733; 29734; 29736; 29737; 29738; 29739; 29740; 29741; 29742; 29743; 29744; 29745; 29746; 29747; 29748; 29749; 29750; 29753; 29754; 29759; 29760; 29761; 29762; 29764; 29766; 29767; 29769; 29770; 29771; 29773; 29774; 29775; 29776; 29777; 29778; 29779; 29780; 29781; 29783; 29785; 29786; 29787; 29788; 29789; 29790; 29791; 29792; 29794; 29795; 29796; 29797; 29799; 29801; 29802; 29804; 29805; 29806; 29807; 29808; 29809; 29810; 29811; 29812; 29813; 29814; 29817; 29820; 29821; 29822; 29823; 29824; 29825; 29826; 29827; 29829; 29830; 29831; 29832; 29833; 29834; 29835; 29840; 29842; 29844; 29845; 29847; 29848; 29850; 29852; 29854; 29855; 29856; 29857];
  [29859; 29860; 29861; 29862; 29863; 29864; 29865; 29866; 29867; 29869; 29871; 29872; 29873; 29874; 29877; 29878; 29879; 29880; 29882; 29883; 29885; 29886; 29887; 29888; 29889; 29890; 29891; 29893; 29896; 29898; 29899; 29903; 29908; 29909; 29910; 29911; 29912; 29913; 29914; 29915; 29916; 29917; 29918; 29919; 29920; 29921; 29922; 29923; 29924; 29925; 29926; 29928; 29929; 29932; 29934; 29940; 29941; 29942; 29943; 29947; 29949; 29950; 29951; 29952; 29954; 29955; 29956; 29959; 29960; 29963; 29964; 29965; 29966; 29967; 29968; 29969; 29970; 29971; 29972; 29973; 29974; 29975; 29976; 29978; 29980; 29981; 29982; 29983; 29985; 29986; 29989; 29990; 29992; 29993; 29994; 29995; 29996; 29997; 29998; 29999];
  [30000; 30001; 30002; 30003; 30007; 30008; 30009; 30010; 30013; 30014; 30015; 30016; 30023; 30024; 30026; 30027; 30028; 30029; 30030; 30031; 30036; 30041; 30042; 30043; 30044; 30045; 30047; 30050; 30051; 30052; 30053; 30054; 30055; 30058; 30059; 30060; 30062; 30063; 30064; 30070; 30071; 30072; 30073; 30077; 30078; 30079; 30080; 30084; 30086; 30087; 30090; 30091; 30092; 30094; 30095; 30096; 30097; 30098; 30100; 30101; 30104; 30105; 30106; 30109; 30110; 30114; 30115; 30116; 30117; 30119; 30122; 30123; 30128; 30130; 30131; 30132; 30133; 30134; 30136; 30137; 30138; 30139; 30140; 30141; 30142; 30143; 30144; 30145; 30146; 30148; 30149; 30151; 30154; 30155; 30156; 30157; 30158; 30159; 30160; 30161];
  [30162; 30164; 30165; 30167; 30168; 30169; 30170; 30171; 30173; 30174; 30175; 30176; 30177; 30178; 30179; 30180; 30182; 30183; 30189; 30191; 30192; 30193; 30194; 30195; 30196; 30197; 30198; 30199; 30200; 30201; 30202; 30203; 30204; 30205; 30206; 30207; 30208; 30209; 30210; 30211; 30216; 30217; 30218; 30219; 30220; 30221; 30223; 30224; 30225; 30227; 30228; 30229; 30230; 30233; 30234; 30235; 30236; 30237; 30238; 30239; 30240; 30241; 30242; 30243; 30244; 30245; 30246; 30247; 30248; 30249; 30252; 30253; 30255; 30256; 30257; 30258; 30259; 30260; 30261; 30264; 30266; 30268; 30269; 30274; 30275; 30278; 30279; 30280; 30281; 30284; 30287; 30288; 30289; 30290; 30291; 30294; 30295; 30296; 30297; 30298];
  [30300; 30303; 30304; 30305; 30306; 30308; 30309; 30313; 30314; 30316; 30317; 30318; 30319; 30320; 30321; 30322; 30325; 30326; 30328; 30329; 30331; 30332; 30333; 30334; 30335; 30337; 30338; 30340; 30342; 30343; 30344; 30345; 30346; 30347; 30350; 30351; 30352; 30354; 30355; 30357; 30358; 30361; 30362; 30363; 30364; 30365; 30366; 30369; 30372; 30373; 30374; 30378; 30379; 30381; 30382; 30383; 30384; 30388; 30389; 30391; 30392; 30394; 30395; 30397; 30398; 30399; 30402; 30403; 30404; 30405; 30406; 30408; 30409; 30410; 30412; 30413; 30414; 30418; 30419; 30420; 30426; 30427; 30428; 30429; 30430; 30431; 30433; 30435; 30436; 30437; 30438; 30439; 30441; 30442; 30444; 30445; 30446; 30447; 30448; 30449];
  [30450; 30451; 30452; 30453; 30455; 30456; 30457; 30458; 30459; 30460; 30462; 30465; 30467; 30468; 30469; 30471; 30472; 30473; 30474; 30475; 30480; 30481; 30482; 30483; 30485; 30489; 30490; 30491; 30493; 30494; 30495; 30496; 30498; 30499; 30501; 30502; 30503; 30504; 30505; 30509; 30511; 30513; 30514; 30515; 30516; 30517; 30518; 30519; 30520; 30521; 30522; 30523; 30524; 30525; 30526; 30528; 30532; 30533; 30534; 30535; 30538; 30539; 30540; 30541; 30542; 30543; 30546; 30548; 30549; 30550; 30552; 30553; 30554; 30555; 30556; 30558; 30559; 30560; 30561; 30562; 30563; 30565; 30566; 30567; 30568; 30569; 30570; 30571; 30572; 30573; 30574; 30575; 30585; 30588; 30589; 30590; 30591; 30592; 30593; 30594];
  [30595; 30596; 30597; 30599; 30600; 30601; 30603; 30604; 30605; 30606; 30607; 30609; 30613; 30615; 30617; 30618; 30619; 30620; 30621; 30622; 30623; 30624; 30625; 30626; 30627; 30629; 30631; 30632; 30634; 30635; 30636; 30637; 30639; 30640; 30641; 30642; 30643; 30644; 30645; 30646; 30647; 30650; 30651; 30652; 30653; 30655; 30658; 30660; 30661; 30663; 30665; 30666; 30668; 30669; 30670; 30671; 30672; 30675; 30676; 30677; 30679; 30680; 30681; 30682; 30683; 30684; 30686; 30688; 30690; 30691; 30693; 30694; 30695; 30696; 30697; 30700; 30701; 30702; 30703; 30704; 30705; 30706; 30707; 30708; 30711; 30712; 30713; 30714; 30715; 30716; 30717; 30722; 30723; 30725; 30726; 30729; 30732; 30733; 30734; 30735];
  [30736; 30737; 30738; 30739; 30740; 30749; 30751; 30752; 30753; 30754; 30755; 30757; 30758; 30759; 30760; 30761; 30762; 30763; 30764; 30765; 30766; 30767; 30768; 30769; 30770; 30771; 30772; 30773; 30775; 30776; 30780; 30787; 30789; 30792; 30793; 30794; 30796; 30797; 30798; 30800; 30802; 30812; 30813; 30814; 30816; 30818; 30820; 30821; 30824; 30825; 30826; 30827; 30828; 30829; 30830; 30831; 30832; 30833; 30841; 30843; 30844; 30846; 30847; 30848; 30849; 30851; 30852; 30853; 30854; 30855; 30857; 30860; 30862; 30863; 30865; 30867; 30868; 30869; 30870; 30871; 30872; 30873; 30874; 30878; 30879; 30880; 30881; 30882; 30883; 30884; 30885; 30887; 30888; 30889; 30890; 30891; 30892; 30893; 30895; 30896];
  [30897; 30898; 30899; 30900; 30906; 30907; 30908; 30910; 30913; 30915; 30916; 30917; 30919; 30920; 30921; 30922; 30923; 30924; 30925; 30926; 30927; 30928; 30929; 30931; 30932; 30933; 30935; 30938; 30939; 30941; 30942; 30943; 30944; 30945; 30946; 30947; 30949; 30951; 30952; 30953; 30954; 30956; 30957; 30959; 30961; 30962; 30963; 30964; 30967; 30969; 30970; 30971; 30972; 30973; 30974; 30975; 30977; 30978; 30980; 30981; 30985; 30988; 30990; 30992; 30993; 30994; 30995; 30996; 30999; 31001; 31003; 31004; 31005; 31006; 31009; 31011; 31012; 31013; 31014; 31015; 31016; 31017; 31018; 31019; 31020; 31021; 31022; 31023; 31025; 31028; 31029; 31032; 31033; 31034; 31036; 31037; 31038; 31039; 31040; 31041];
  [31042; 31044; 31045; 31046; 31047; 31048; 31049; 31050; 31051; 31052; 31055; 31056; 31057; 31058; 31059; 31060; 31061; 31062; 31063; 31066; 31067; 31068; 31069; 31070; 31071; 31072; 31073; 31075; 31076; 31077; 31079; 31080; 31081; 31082; 31083; 31085; 31088; 31089; 31090; 31091; 31092; 31097; 31098; 31100; 31101; 31103; 31104; 31105; 31106; 31110; 31112; 31114; 31115; 31117; 31118; 31119; 31120; 31122; 31123; 31124; 31125; 31126; 31127; 31128; 31130; 31131; 31132; 31133; 31136; 31137; 31138; 31140; 31142; 31143; 31144; 31145; 31146; 31147; 31148; 31149; 31150; 31152; 31153; 31154; 31155; 31156; 31158; 31159; 31160; 31161; 31162; 31163; 31165; 31166; 31167; 31168; 31169; 31173; 31174; 31176];
  [31177; 31179; 31180; 31181; 31182; 31183; 31185; 31186; 31188; 31189; 31190; 31192; 31196; 31197; 31198; 31199; 31200; 31203; 31204; 31206; 31207; 31209; 31210; 31211; 31212; 31213; 31214; 31222; 31223; 31224; 31226; 31227; 31232; 31234; 31235; 31236; 31237; 31240; 31242; 31243; 31244; 31245; 31248; 31249; 31250; 31251; 31252; 31253; 31255; 31256; 31257; 31258; 31259; 31260; 31262; 31263; 31264; 31266; 31270; 31272; 31275; 31278; 31279; 31280; 31281; 31287; 31289; 31291; 31292; 31293; 31295; 31296; 31300; 31302; 31303; 31304; 31306; 31307; 31308; 31309; 31310; 31316; 31318; 31319; 31320; 31322; 31323; 31324; 31327; 31328; 31329; 31330; 31335; 31336; 31337; 31339; 31340; 31341; 31342; 31344];
  [31345; 31348; 31349; 31350; 31352; 31353; 31354; 31355; 31358; 31359; 31360; 31361; 31364; 31365; 31366; 31367; 31368; 31369; 31370; 31371; 31372; 31375; 31376; 31378; 31380; 31381; 31382; 31383; 31384; 31385; 31390; 31391; 31392; 31394; 31395; 31400; 31401; 31402; 31403; 31404; 31406; 31407; 31409; 31410; 31411; 31412; 31413; 31414; 31415; 31416; 31418; 31422; 31423; 31424; 31425; 31428; 31429; 31431; 31434; 31435; 31441; 31448; 31449; 31455; 31456; 31459; 31460; 31461; 31462; 31467; 31469; 31470; 31471; 31478; 31479; 31481; 31482; 31483; 31485; 31487; 31488; 31489; 31492; 31493; 31494; 31496; 31497; 31498; 31502; 31503; 31504; 31505; 31506; 31507; 31512; 31513; 31514; 31515; 31517; 31518];
  [31520; 31522; 31523; 31524; 31525; 31526; 31528; 31530; 31531; 31532; 31533; 31534; 31535; 31536; 31537; 31538; 31539; 31540; 31541; 31544; 31547; 31552; 31556; 31557; 31558; 31559; 31560; 31561; 31562; 31563; 31564; 31565; 31566; 31567; 31568; 31569; 31570; 31572; 31574; 31576; 31584; 31585; 31587; 31588; 31589; 31590; 31591; 31593; 31597; 31598; 31600; 31601; 31602; 31603; 31604; 31605; 31606; 31607; 31608; 31618; 31620; 31621; 31623; 31624; 31626; 31627; 31628; 31629; 31630; 31631; 31632; 31633; 31636; 31637; 31638; 31639; 31640; 31641; 31643; 31644; 31645; 31648; 31649; 31652; 31660; 31661; 31663; 31665; 31668; 31669; 31671; 31672; 31673; 31678; 31680; 31681; 31684; 31686; 31687; 31689];
  [31690; 31691; 31692; 31694; 31700; 31701; 31704; 31705; 31706; 31707; 31708; 31709; 31710; 31711; 31712; 31713; 31714; 31715; 31716; 31717; 31718; 31719; 31720; 31721; 31722; 31723; 31728; 31729; 31730; 31731; 31732; 31735; 31736; 31737; 31739; 31741; 31742; 31743; 31744; 31745; 31746; 31747; 31749; 31750; 31751; 31753; 31754; 31755; 31756; 31757; 31758; 31759; 31760; 31761; 31765; 31769; 31772; 31773; 31774; 31775; 31776; 31777; 31778; 31779; 31781; 31782; 31783; 31784; 31785; 31786; 31787; 31788; 31789; 31792; 31795; 31799; 31800; 31801; 31803; 31804; 31805; 31806; 31807; 31808; 31811; 31813; 31815; 31816; 31817; 31818; 31820; 31821; 31824; 31827; 31828; 31831; 31833; 31834; 31835; 31836];
  [31839; 31840; 31843; 31844; 31845; 31846; 31847; 31849; 31850; 31851; 31852; 31854; 31855; 31858; 31859; 31861; 31864; 31865; 31866; 31869; 31871; 31872; 31873; 31876; 31877; 31880; 31881; 31882; 31884; 31885; 31889; 31890; 31892; 31893; 31894; 31895; 31896; 31902; 31903; 31905; 31906; 31907; 31909; 31911; 31912; 31919; 31921; 31922; 31923; 31924; 31925; 31929; 31930; 31931; 31932; 31933; 31934; 31935; 31941; 31944; 31946; 31947; 31948; 31950; 31952; 31953; 31954; 31956; 31957; 31958; 31959; 31961; 31964; 31965; 31966; 31967; 31968; 31970; 31975; 31976; 31978; 31980; 31982; 31983; 31984; 31985; 31986; 31988; 31990; 31991; 31992; 31995; 31997; 31998; 32000; 32001; 32002; 32003; 32004; 32005];
  [32006; 32007; 32008; 32009; 32010; 32011; 32012; 32013; 32014; 32015; 32016; 32017; 32018; 32019; 32020; 32021; 32022; 32023; 32024; 32025; 32026; 32027; 32028; 32029; 32030; 32031; 32032; 32033; 32034; 32040; 32041; 32043; 32044; 32046; 32047; 32048; 32049; 32050; 32051; 32053; 32054; 32056; 32057; 32058; 32059; 32060; 32061; 32062; 32063; 32064; 32065; 32066; 32067; 32068; 32069; 32070; 32071; 32074; 32078; 32079; 32080; 32081; 32082; 32083; 32084; 32085; 32086; 32088; 32091; 32092; 32094; 32095; 32097; 32098; 32099; 32102; 32103; 32104; 32105; 32106; 32107; 32109; 32110; 32111; 32112; 32113; 32114; 32115; 32121; 32122; 32123; 32124; 32125; 32127; 32128; 32129; 32131; 32132; 32133; 32134];
  [32136; 32140; 32141; 32142; 32143; 32145; 32146; 32147; 32148; 32150; 32156; 32157; 32158; 32159; 32160; 32161; 32162; 32163; 32166; 32167; 32169; 32170; 32172; 32173; 32174; 32175; 32176; 32177; 32178; 32180; 32181; 32183; 32184; 32185; 32186; 32187; 32188; 32189; 32190; 32191; 32192; 32193; 32194; 32196; 32197; 32198; 32199; 32201; 32202; 32203; 32204; 32206; 32210; 32215; 32216; 32217; 32218; 32219; 32221; 32222; 32223; 32224; 32225; 32227; 32230; 32231; 32232; 32233; 32234; 32236; 32238; 32239; 32240; 32241; 32242; 32243; 32244; 32246; 32247; 32249; 32250; 32251; 32259; 32264; 32265; 32266; 32267; 32268; 32269; 32270; 32271; 32272; 32273; 32274; 32275; 32276; 32277; 32278; 32279; 32282];
  [32283; 32284; 32285; 32286; 32287; 32288; 32289; 32290; 32291; 32292; 32293; 32297; 32298; 32299; 32301; 32302; 32303; 32304; 32305; 32306; 32307; 32308; 32309; 32310; 32311; 32312; 32313; 32314; 32315; 32316; 32317; 32318; 32319; 32320; 32321; 32322; 32323; 32324; 32325; 32326; 32327; 32328; 32329; 32332; 32336; 32337; 32338; 32339; 32340; 32341; 32342; 32343; 32344; 32345; 32346; 32348; 32350; 32351; 32352; 32353; 32354; 32355; 32360; 32361; 32362; 32363; 32365; 32367; 32368; 32370; 32371; 32372; 32373; 32374; 32375; 32376; 32377; 32378; 32379; 32380; 32381; 32382; 32384; 32385; 32386; 32390; 32391; 32392; 32394; 32395; 32396; 32397; 32399; 32401; 32403; 32404; 32405; 32406; 32407; 32408];
  [32409; 32410; 32411; 32412; 32566; 32568; 32569; 32570; 32573; 32574; 32575; 32579; 32580; 32581; 32584; 32586; 32587; 32588; 32589; 32591; 32592; 32593; 32596; 32597; 32600; 32603; 32604; 32605; 32606; 32607; 32608; 32609; 32611; 32613; 32614; 32615; 32616; 32617; 32618; 32619; 32620; 32621; 32622; 32624; 32626; 32627; 32629; 32630; 32631; 32633; 32634; 32635; 32636; 32637; 32638; 32639; 32643; 32645; 32646; 32647; 32648; 32649; 32650; 32651; 32652; 32653; 32654; 32655; 32657; 32658; 32660; 32661; 32662; 32666; 32667; 32668; 32669; 32670; 32672; 32673; 32674; 32676; 32677; 32678; 32679; 32680; 32681; 32684; 32685; 32687; 32688; 32689; 32690; 32691; 32693; 32694; 32695; 32696; 32697; 32698];
  [32699; 32700; 32701; 32702; 32703; 32704; 32705; 32706; 32707; 32709; 32711; 32713; 32714; 32715; 32716; 32717; 32718; 32719; 32720; 32721; 32722; 32724; 32725; 32727; 32731; 32732; 32734; 32735; 32736; 32737; 32738; 32739; 32741; 32742; 32744; 32745; 32746; 32747; 32748; 32749; 32750; 32751; 32752; 32753; 32754; 32755; 32756; 32757; 32759; 32760; 32761; 32763; 32764; 32765; 32766; 32767; 32768; 32769; 32771; 32772; 32773; 32774; 32775; 32779; 32780; 32781; 32782; 32783; 32784; 32785; 32786; 32788; 32789; 32790; 32791; 32792; 32793; 32795; 32796; 32798; 32799; 32801; 32804; 32806; 32808; 32809; 32810; 32812; 32816; 32819; 32820; 32821; 32822; 32823; 32825; 32829; 32830; 32831; 32835; 32838];
  [32839; 32840; 32842; 32847; 32848; 32849; 32850; 32854; 32856; 32858; 32860; 32861; 32862; 32868; 32871; 32876; 32879; 32880; 32881; 32882; 32883; 32885; 32886; 32887; 32888; 32889; 32893; 32894; 32895; 32898; 32900; 32901; 32902; 32903; 32905; 32906; 32907; 32908; 32911; 32912; 32914; 32915; 32917; 32918; 32920; 32921; 32922; 32923; 32924; 32925; 32929; 32930; 32931; 32933; 32937; 32938; 32939; 32941; 32942; 32943; 32945; 32946; 32948; 32949; 32952; 32954; 32962; 32963; 32964; 32965; 32967; 32968; 32969; 32970; 32972; 32973; 32974; 32975; 32976; 32977; 32980; 32981; 32982; 32983; 32984; 32985; 32986; 32987; 32988; 32989; 32990; 32992; 32993; 32995; 32996; 32997; 32998; 33005; 33007; 33008];
  [33009; 33010; 33011; 33012; 33013; 33016; 33017; 33018; 33019; 33020; 33021; 33022; 33024; 33025; 33026; 33029; 33030; 33032; 33034; 33045; 33046; 33048; 33049; 33051; 33053; 33054; 33055; 33057; 33058; 33059; 33060; 33061; 33063; 33065; 33067; 33068; 33069; 33071; 33072; 33081; 33082; 33085; 33086; 33091; 33092; 33094; 33095; 33098; 33099; 33100; 33101; 33102; 33103; 33104; 33105; 33106; 33107; 33108; 33109; 33115; 33116; 33118; 33120; 33121; 33122; 33124; 33125; 33126; 33127; 33129; 33131; 33134; 33135; 33136; 33137; 33138; 33139; 33140; 33142; 33143; 33144; 33145; 33146; 33151; 33152; 33154; 33155; 33158; 33159; 33160; 33161; 33162; 33163; 33164; 33165; 33167; 33173; 33175; 33176; 33177];
  [33178; 33179; 33180; 33181; 33182; 33183; 33184; 33186; 33187; 33190; 33191; 33192; 33193; 33195; 33196; 33198; 33200; 33201; 33202; 33203; 33204; 33205; 33207; 33209; 33210; 33211; 33212; 33213; 33214; 33215; 33216; 33218; 33219; 33220; 33221; 33222; 33223; 33225; 33226; 33228; 33229; 33231; 33232; 33233; 33234; 33237; 33239; 33240; 33241; 33242; 33243; 33245; 33246; 33247; 33248; 33249; 33250; 33251; 33253; 33254; 33255; 33256; 33257; 33258; 33260; 33261; 33262; 33263; 33266; 33267; 33268; 33271; 33272; 33273; 33274; 33275; 33276; 33278; 33279; 33280; 33281; 33282; 33284; 33285; 33287; 33288; 33289; 33290; 33291; 33292; 33293; 33296; 33297; 33298; 33300; 33301; 33302; 33307; 33308; 33309];
  [33310; 33311; 33312; 33313; 33314; 33317; 33318; 33320; 33322; 33323; 33324; 33327; 33330; 33331; 33332; 33333; 33334; 33335; 33336; 33337; 33338; 33340; 33341; 33343; 33344; 33346; 33348; 33349; 33351; 33353; 33355; 33358; 33359; 33360; 33361; 33362; 33363; 33365; 33366; 33367; 33368; 33369; 33370; 33371; 33372; 33374; 33375; 33377; 33379; 33380; 33382; 33384; 33385; 33387; 33388; 33389; 33390; 33391; 33393; 33394; 33396; 33397; 33399; 33400; 33404; 33405; 33406; 33407; 33408; 33411; 33412; 33413; 33415; 33418; 33419; 33421; 33422; 33423; 33424; 33425; 33426; 33427; 33428; 33432; 33433; 33434; 33435; 33437; 33438; 33439; 33440; 33441; 33442; 33443; 33444; 33445; 33447; 33448; 33449; 33451];
  [33452; 33453; 33454; 33455; 33456; 33457; 33459; 33460; 33461; 33462; 33463; 33464; 33465; 33466; 33467; 33468; 33469; 33470; 33472; 33474; 33475; 33489; 33490; 33491; 33492; 33493; 33494; 33495; 33497; 33499; 33500; 33502; 33503; 33504; 33505; 33507; 33508; 33509; 33510; 33511; 33512; 33514; 33515; 33516; 33517; 33518; 33519; 33520; 33521; 33522; 33523; 33524; 33525; 33526; 33529; 33530; 33531; 33532; 33534; 33536; 33537; 33538; 33539; 33540; 33541; 33542; 33543; 33544; 33545; 33548; 33549; 33558; 33559; 33561; 33563; 33564; 33566; 33568; 33570; 33572; 33573; 33574; 33575; 33576; 33577; 33578; 33579; 33580; 33581; 33583; 33585; 33586; 33587; 33588; 33589; 33590; 33591; 33592; 33593; 33594];
  [33595; 33596; 33599; 33600; 33601; 33602; 33603; 33604; 33605; 33607; 33608; 33609; 33610; 33611; 33612; 33613; 33614; 33615; 33616; 33617; 33618; 33619; 33620; 33622; 33635; 33651; 33652; 33653; 33654; 33655; 33656; 33658; 33659; 33660; 33661; 33662; 33663; 33665; 33667; 33670; 33671; 33672; 33673; 33674; 33675; 33676; 33677; 33678; 33679; 33680; 33682; 33683; 33684; 33685; 33686; 33687; 33688; 33689; 33690; 33691; 33693; 33694; 33696; 33698; 33699; 33700; 33701; 33702; 33703; 33704; 33705; 33706; 33707; 33710; 33711; 33712; 33721; 33725; 33727; 33728; 33729; 33730; 33731; 33732; 33733; 33734; 33735; 33736; 33737; 33738; 33739; 33740; 33741; 33742; 33743; 33745; 33748; 33749; 33750; 33751];
  [33752; 33753; 33755; 33756; 33757; 33758; 33759; 33760; 33761; 33762; 33763; 33764; 33765; 33767; 33768; 33769; 33770; 33771; 33772; 33774; 33775; 33776; 33777; 33778; 33779; 33780; 33781; 33782; 33784; 33785; 33786; 33787; 33788; 33789; 33790; 33791; 33793; 33795; 33796; 33798; 33799; 33801; 33802; 33803; 33804; 33805; 33806; 33807; 33808; 33809; 33810; 33811; 33814; 33819; 33827; 33828; 33833; 33835; 33836; 33837; 33838; 33839; 33840; 33841; 33842; 33843; 33844; 33845; 33846; 33847; 33848; 33849; 33850; 33851; 33852; 33853; 33855; 33856; 33858; 33859; 33860; 33861; 33862; 33863; 33865; 33867; 33868; 33869; 33870; 33872; 33873; 33874; 33876; 33878; 33879; 33881; 33882; 33883; 33885; 33886];
  [33887; 33888; 33889; 33890; 33891; 33893; 33894; 33895; 33896; 33897; 33899; 33900; 33901; 33902; 33903; 33904; 33907; 33908; 33909; 33910; 33911; 33912; 33913; 33914; 33917; 33918; 33922; 33926; 33933; 33934; 33935; 33936; 33937; 33940; 33943; 33944; 33945; 33946; 33947; 33948; 33949; 33950; 33951; 33952; 33953; 33954; 33956; 33959; 33960; 33961; 33962; 33963; 33964; 33966; 33967; 33968; 33969; 33970; 33972; 33974; 33976; 33977; 33978; 33979; 33980; 33983; 33984; 33985; 33986; 33988; 33989; 33990; 33991; 33993; 33994; 33995; 33996; 33997; 33998; 33999; 34000; 34001; 34002; 34003; 34004; 34006; 34007; 34011; 34023; 34024; 34025; 34026; 34027; 34028; 34030; 34031; 34032; 34033; 34034; 34035];
  [34036; 34038; 34039; 34041; 34042; 34043; 34044; 34045; 34046; 34047; 34048; 34050; 34053; 34054; 34055; 34056; 34057; 34058; 34059; 34060; 34061; 34062; 34063; 34065; 34066; 34067; 34068; 34069; 34070; 34071; 34072; 34073; 34074; 34076; 34077; 34078; 34079; 34080; 34081; 34083; 34084; 34085; 34086; 34087; 34088; 34089; 34090; 34091; 34092; 34093; 34094; 34095; 34096; 34097; 34099; 34107; 34109; 34110; 34112; 34113; 34114; 34115; 34116; 34117; 34118; 34119; 34120; 34121; 34122; 34124; 34125; 34126; 34129; 34131; 34132; 34133; 34134; 34135; 34136; 34137; 34139; 34141; 34142; 34144; 34145; 34146; 34147; 34148; 34149; 34150; 34151; 34152; 34153; 34154; 34155; 34156; 34157; 34158; 34161; 34165];
  [34166; 34167; 34168; 34169; 34170; 34171; 34172; 34174; 34176; 34177; 34178; 34179; 34180; 34181; 34182; 34183; 34184; 34185; 34186; 34187; 34188; 34189; 34190; 34191; 34192; 34193; 34196; 34197; 34198; 34200; 34201; 34202; 34203; 34204; 34205; 34206; 34207; 34208; 34209; 34210; 34211; 34212; 34214; 34215; 34216; 34217; 34218; 34223; 34224; 34225; 34227; 34228; 34229; 34230; 34231; 34232; 34233; 34234; 34237; 34238; 34239; 34240; 34242; 34243; 34244; 34245; 34246; 34247; 34248; 34249; 34251; 34253; 34254; 34255; 34256; 34257; 34258; 34261; 34263; 34264; 34265; 34266; 34268; 34269; 34270; 34271; 34273; 34274; 34275; 34276; 34277; 34278; 34280; 34281; 34282; 34283; 34284; 34285; 34287; 34288];
  [34289; 34290; 34294; 34295; 34296; 34297; 34298; 34299; 34301; 34302; 34303; 34304; 34305; 34308; 34309; 34310; 34311; 34313; 34314; 34315; 34316; 34317; 34321; 34327; 34328; 34329; 34330; 34331; 34332; 34334; 34335; 34336; 34337; 34338; 34339; 34340; 34341; 34342; 34343; 34345; 34346; 34348; 34349; 34350; 34353; 34354; 34355; 34356; 34357; 34358; 34360; 34361; 34362; 34363; 34364; 34366; 34367; 34368; 34371; 34374; 34375; 34376; 34379; 34380; 34381; 34382; 34384; 34386; 34387; 34388; 34389; 34390; 34393; 34395; 34396; 34398; 34399; 34401; 34402; 34403; 34404; 34405; 34407; 34408; 34409; 34410; 34411; 34413; 34414; 34415; 34416; 34417; 34419; 34420; 34423; 34425; 34426; 34427; 34428; 34437];
  [34438; 34439; 34442; 34443; 34444; 34445; 34446; 34448; 34449; 34451; 34452; 34453; 34454; 34455; 34456; 34457; 34458; 34460; 34461; 34462; 34465; 34466; 34467; 34468; 34469; 34471; 34472; 34473; 34474; 34479; 34480; 34481; 34483; 34484; 34485; 34486; 34487; 34488; 34489; 34490; 34491; 34492; 34493; 34494; 34495; 34496; 34497; 34498; 34499; 34500; 34501; 34502; 34503; 34504; 34505; 34507; 34508; 34512; 34513; 34515; 34516; 34518; 34519; 34520; 34521; 34522; 34523; 34524; 34525; 34526; 34527; 34530; 34531; 34532; 34534; 34536; 34537; 34538; 34539; 34540; 34541; 34549; 34550; 34551; 34552; 34553; 34554; 34555; 34558; 34560; 34561; 34562; 34563; 34564; 34565; 34566; 34567; 34568; 34569; 34570];
  [34571; 34572; 34573; 34574; 34577; 34578; 34579; 34584; 34585; 34586; 34587; 34588; 34590; 34592; 34593; 34594; 34595; 34596; 34597; 34598; 34599; 34600; 34601; 34602; 34604; 34605; 34606; 34608; 34609; 34610; 34611; 34612; 34613; 34615; 34616; 34618; 34619; 34620; 34622; 34623; 34624; 34625; 34626; 34627; 34630; 34636; 34637; 34638; 34639; 34640; 34641; 34642; 34643; 34644; 34645; 34646; 34647; 34648; 34649; 34650; 34651; 34652; 34653; 34654; 34655; 34656; 34657; 34658; 34659; 34660; 34661; 34662; 34663; 34664; 34665; 34666; 34667; 34668; 34669; 34670; 34671; 34675; 34676; 34677; 34678; 34679; 34680; 34681; 34682; 34683; 34685; 34689; 34690; 34691; 34692; 34693; 34695; 34696; 34697; 34701];
  [34703; 34704; 34705; 34706; 34707; 34708; 34710; 34711; 34712; 34714; 34715; 34716; 34717; 34718; 34719; 34722; 34723; 34724; 34730; 34731; 34732; 34733; 34734; 34735; 34736; 34738; 34739; 34740; 34741; 34742; 34743; 34744; 34745; 34746; 34747; 34748; 34749; 34750; 34751; 34752; 34754; 34755; 34756; 34757; 34758; 34760; 34761; 34762; 34763; 34764; 34769; 34770; 34771; 34772; 34775; 34776; 34777; 34779; 34780; 34781; 34782; 34783; 34784; 34785; 34786; 34787; 34788; 34789; 34790; 34791; 34792; 34794; 34795; 34796; 34797; 34799; 34802; 34803; 34804; 34806; 34807; 34809; 34810; 34811; 34812; 34814; 34815; 34816; 34817; 34818; 34819; 34821; 34822; 34824; 34825; 34826; 34827; 34828; 34829; 34832];
  [34833; 34835; 34836; 34837; 34838; 34839; 34841; 34843; 34844; 34845; 34847; 34848; 34849; 34850; 34851; 34852; 34853; 34854; 34856; 34857; 34858; 34859; 34860; 34862; 34863; 34864; 34865; 34866; 34867; 34869; 34870; 34871; 34872; 34873; 34875; 34876; 34877; 34878; 34879; 34880; 34881; 34883; 34884; 34888; 34890; 34891; 34892; 34893; 34894; 34898; 34899; 34901; 34902; 34903; 34905; 34906; 34907; 34909; 34913; 34914; 34915; 34919; 34920; 34921; 34922; 34923; 34925; 34927; 34928; 34929; 34930; 34932; 34933; 34934; 34935; 34937; 34940; 34941; 34942; 34943; 34944; 34945; 34946; 34947; 34948; 34952; 34953; 34955; 34956; 34957; 34958; 34961; 34962; 34963; 34965; 34966; 34967; 34968; 34969; 34970];
  [34971; 34974; 34975; 34977; 34978; 34980; 34983; 34984; 34986; 34987; 34988; 34993; 34994; 34998; 34999; 35000; 35001; 35002; 35004; 35005; 35006; 35008; 35009; 35010; 35017; 35018; 35019; 35020; 35021; 35022; 35023; 35024; 35026; 35028; 35029; 35030; 35031; 35032; 35033; 35034; 35035; 35036; 35037; 35038; 35039; 35041; 35047; 35048; 35051; 35052; 35054; 35055; 35056; 35057; 35058; 35059; 35060; 35062; 35063; 35064; 35065; 35066; 35067; 35068; 35069; 35070; 35072; 35073; 35074; 35077; 35078; 35079; 35081; 35082; 35083; 35084; 35086; 35088; 35089; 35090; 35091; 35092; 35093; 35094; 35095; 35096; 35097; 35098; 35102; 35103; 35105; 35106; 35107; 35109; 35110; 35111; 35113; 35114; 35115; 35116];
  [35117; 35118; 35119; 35120; 35121; 35122; 35123; 35125; 35126; 35127; 35128; 35131; 35132; 35133; 35134; 35137; 35138; 35140; 35142; 35145; 35147; 35148; 35151; 35152; 35153; 35154; 35155; 35158; 35159; 35160; 35161; 35162; 35163; 35164; 35165; 35166; 35167; 35168; 35169; 35170; 35171; 35172; 35174; 35177; 35178; 35179; 35180; 35181; 35182; 35183; 35185; 35186; 35187; 35188; 35190; 35193; 35194; 35195; 35196; 35198; 35199; 35201; 35202; 35203; 35205; 35206; 35208; 35211; 35215; 35219; 35221; 35222; 35223; 35224; 35227; 35228; 35229; 35230; 35231; 35233; 35234; 35235; 35236; 35238; 35242; 35244; 35245; 35246; 35247; 35250; 35254; 35255; 35257; 35258; 35261; 35262; 35263; 35264; 35282; 35283];
  [35284; 35285; 35286; 35289; 35290; 35291; 35292; 35293; 35295; 35296; 35297; 35298; 35299; 35300; 35301; 35302; 35304; 35305; 35307; 35308; 35309; 35312; 35313; 35314; 35315; 35316; 35318; 35319; 35320; 35322; 35323; 35324; 35326; 35327; 35328; 35330; 35331; 35332; 35335; 35336; 35338; 35340; 35342; 35343; 35344; 35345; 35346; 35347; 35349; 35350; 35351; 35352; 35355; 35357; 35358; 35359; 35362; 35363; 35365; 35367; 35370; 35372; 35373; 35376; 35377; 35380; 35382; 35385; 35386; 35387; 35388; 35390; 35391; 35392; 35393; 35396; 35397; 35398; 35400; 35402; 35404; 35405; 35406; 35407; 35408; 35409; 35410; 35412; 35413; 35414; 35415; 35416; 35417; 35419; 35422; 35424; 35425; 35426; 35427; 35430];
  [35432; 35433; 35435; 35436; 35437; 35438; 35440; 35441; 35442; 35443; 35444; 35445; 35446; 35447; 35449; 35450; 35451; 35452; 35455; 35457; 35458; 35459; 35460; 35461; 35462; 35463; 35467; 35468; 35469; 35471; 35473; 35474; 35475; 35477; 35478; 35480; 35481; 35482; 35486; 35488; 35489; 35491; 35492; 35493; 35494; 35495; 35496; 35498; 35499; 35504; 35506; 35510; 35512; 35513; 35514; 35515; 35516; 35517; 35518; 35519; 35520; 35522; 35523; 35524; 35525; 35526; 35527; 35528; 35529; 35531; 35533; 35535; 35537; 35538; 35539; 35540; 35541; 35542; 35543; 35544; 35545; 35547; 35548; 35549; 35550; 35551; 35552; 35553; 35554; 35556; 35558; 35559; 35560; 35563; 35565; 35566; 35567; 35568; 35569; 35570];
  [35571; 35572; 35573; 35574; 35575; 35576; 35578; 35579; 35580; 35582; 35583; 35584; 35585; 35586; 35588; 35589; 35590; 35591; 35592; 35594; 35595; 35597; 35598; 35599; 35600; 35601; 35602; 35603; 35604; 35605; 35606; 35607; 35608; 35609; 35610; 35611; 35612; 35613; 35614; 35616; 35618; 35619; 35620; 35621; 35622; 35623; 35624; 35626; 35627; 35628; 35630; 35631; 35632; 35633; 35635; 35637; 35638; 35639; 35641; 35642; 35643; 35644; 35645; 35646; 35648; 35649; 35650; 35653; 35654; 35655; 35656; 35657; 35658; 35659; 35662; 35663; 35664; 35665; 35666; 35667; 35668; 35669; 35670; 35671; 35672; 35673; 35674; 35676; 35677; 35679; 35680; 35683; 35685; 35686; 35687; 35688; 35690; 35691; 35692; 35693];
  [35695; 35696; 35700; 35703; 35704; 35705; 35706; 35707; 35709; 35710; 35711; 35712; 35714; 35716; 35717; 35718; 35720; 35722; 35723; 35724; 35726; 35730; 35731; 35732; 35733; 35734; 35736; 35737; 35738; 35740; 35742; 35743; 35895; 35897; 35899; 35900; 35901; 35902; 35903; 35905; 35906; 35907; 35909; 35910; 35911; 35912; 35913; 35914; 35915; 35916; 35917; 35918; 35919; 35920; 35924; 35925; 35926; 35927; 35930; 35932; 35933; 35935; 35937; 35938; 35940; 35941; 35942; 35944; 35945; 35946; 35947; 35948; 35949; 35951; 35952; 35953; 35954; 35955; 35957; 35958; 35959; 35960; 35961; 35962; 35963; 35965; 35968; 35969; 35970; 35972; 35973; 35974; 35977; 35978; 35980; 35981; 35983; 35984; 35985; 35986];
  [35987; 35988; 35989; 35991; 35992; 35993; 35994; 35996; 35997; 35998; 36000; 36001; 36002; 36003; 36004; 36005; 36007; 36008; 36009; 36010; 36011; 36012; 36015; 36016; 36018; 36019; 36020; 36021; 36022; 36023; 36024; 36025; 36026; 36027; 36028; 36029; 36030; 36031; 36032; 36033; 36034; 36035; 36036; 36037; 36039; 36040; 36042; 36044; 36047; 36049; 36050; 36051; 36053; 36055; 36057; 36058; 36060; 36061; 36062; 36063; 36064; 36065; 36066; 36067; 36068; 36069; 36070; 36071; 36072; 36074; 36076; 36077; 36078; 36080; 36081; 36083; 36084; 36085; 36088; 36089; 36090; 36091; 36092; 36093; 36094; 36096; 36098; 36100; 36101; 36102; 36103; 36104; 36105; 36106; 36109; 36111; 36112; 36115; 36116; 36117];
  [36118; 36119; 36121; 36123; 36196; 36198; 36199; 36200; 36201; 36203; 36204; 36205; 36206; 36207; 36208; 36210; 36211; 36212; 36214; 36215; 36216; 36217; 36219; 36221; 36224; 36225; 36228; 36229; 36233; 36234; 36236; 36237; 36238; 36239; 36240; 36241; 36242; 36243; 36244; 36245; 36246; 36249; 36251; 36252; 36255; 36256; 36257; 36259; 36261; 36263; 36264; 36266; 36267; 36268; 36269; 36270; 36271; 36274; 36275; 36276; 36277; 36278; 36279; 36281; 36282; 36284; 36286; 36287; 36289; 36290; 36293; 36294; 36295; 36296; 36299; 36300; 36301; 36302; 36303; 36304; 36305; 36307; 36309; 36310; 36311; 36312; 36313; 36314; 36315; 36316; 36317; 36319; 36320; 36321; 36322; 36323; 36324; 36326; 36327; 36328];
  [36329; 36330; 36331; 36332; 36334; 36335; 36336; 36337; 36338; 36339; 36340; 36346; 36348; 36349; 36350; 36351; 36352; 36354; 36355; 36356; 36357; 36358; 36359; 36361; 36362; 36365; 36367; 36368; 36369; 36370; 36371; 36372; 36373; 36374; 36375; 36376; 36377; 36378; 36379; 36380; 36381; 36382; 36383; 36384; 36385; 36386; 36387; 36388; 36389; 36390; 36391; 36393; 36395; 36398; 36400; 36401; 36403; 36404; 36405; 36406; 36408; 36409; 36412; 36413; 36414; 36415; 36416; 36417; 36418; 36420; 36421; 36423; 36424; 36425; 36426; 36427; 36428; 36429; 36430; 36432; 36435; 36436; 36437; 36438; 36439; 36441; 36442; 36443; 36444; 36445; 36446; 36447; 36448; 36449; 36450; 36451; 36452; 36453; 36454; 36455];
  [36457; 36458; 36460; 36461; 36463; 36466; 36467; 36468; 36470; 36472; 36474; 36475; 36476; 36481; 36482; 36484; 36485; 36486; 36487; 36488; 36489; 36490; 36491; 36492; 36493; 36494; 36496; 36497; 36498; 36499; 36500; 36501; 36502; 36503; 36504; 36506; 36509; 36510; 36511; 36512; 36513; 36515; 36516; 36517; 36518; 36520; 36521; 36522; 36523; 36524; 36530; 36538; 36541; 36544; 36546; 36553; 36554; 36555; 36556; 36557; 36559; 36561; 36562; 36563; 36564; 36567; 36568; 36571; 36572; 36573; 36574; 36575; 36576; 36577; 36581; 36582; 36583; 36584; 36585; 36587; 36588; 36590; 36591; 36593; 36596; 36597; 36598; 36599; 36600; 36601; 36602; 36603; 36604; 36606; 36607; 36608; 36609; 36610; 36611; 36613];
  [36614; 36615; 36616; 36617; 36618; 36619; 36621; 36622; 36624; 36625; 36626; 36627; 36628; 36629; 36630; 36631; 36632; 36634; 36635; 36636; 36637; 36638; 36639; 36640; 36643; 36644; 36645; 36646; 36649; 36650; 36652; 36654; 36655; 36658; 36659; 36660; 36661; 36662; 36663; 36664; 36665; 36667; 36670; 36671; 36672; 36674; 36675; 36676; 36677; 36678; 36679; 36680; 36681; 36683; 36685; 36686; 36687; 36688; 36689; 36690; 36691; 36692; 36693; 36694; 36695; 36696; 36697; 36698; 36699; 36701; 36702; 36703; 36704; 36705; 36706; 36707; 36708; 36763; 36764; 36767; 36771; 36774; 36776; 36781; 36782; 36783; 36784; 36785; 36786; 36788; 36789; 36792; 36799; 36802; 36804; 36805; 36806; 36809; 36811; 36813];
  [36814; 36817; 36818; 36819; 36820; 36821; 36822; 36823; 36832; 36833; 36834; 36835; 36836; 36837; 36838; 36840; 36842; 36843; 36845; 36846; 36848; 36852; 36853; 36854; 36855; 36856; 36858; 36859; 36860; 36861; 36862; 36863; 36864; 36865; 36866; 36867; 36868; 36869; 36870; 36875; 36876; 36877; 36879; 36880; 36881; 36884; 36885; 36886; 36887; 36889; 36890; 36891; 36892; 36893; 36894; 36895; 36896; 36897; 36898; 36899; 36900; 36909; 36910; 36911; 36913; 36914; 36916; 36917; 36918; 36920; 36924; 36925; 36926; 36927; 36929; 36930; 36932; 36935; 36937; 36938; 36939; 36941; 36942; 36943; 36944; 36945; 36946; 36947; 36948; 36949; 36952; 36953; 36955; 36956; 36957; 36958; 36960; 36962; 36963; 36967];
  [36968; 36969; 36971; 36973; 36974; 36975; 36976; 36978; 36979; 36980; 36981; 36982; 36983; 36984; 36985; 36986; 36987; 36988; 36989; 36990; 36991; 36992; 36993; 36994; 36995; 36996; 36997; 36998; 36999; 37000; 37002; 37003; 37005; 37007; 37008; 37009; 37012; 37013; 37015; 37016; 37017; 37019; 37022; 37023; 37024; 37025; 37026; 37027; 37029; 37030; 37031; 37034; 37039; 37040; 37041; 37042; 37043; 37044; 37045; 37046; 37048; 37053; 37054; 37055; 37057; 37059; 37061; 37063; 37064; 37066; 37067; 37070; 37076; 37077; 37078; 37079; 37080; 37081; 37082; 37083; 37084; 37085; 37087; 37088; 37089; 37090; 37091; 37092; 37093; 37096; 37097; 37098; 37099; 37100; 37101; 37103; 37104; 37105; 37106; 37107];
  [37108; 37109; 37113; 37114; 37115; 37116; 37117; 37118; 37119; 37120; 37121; 37122; 37123; 37124; 37125; 37126; 37127; 37128; 37129; 37131; 37133; 37134; 37135; 37136; 37137; 37138; 37140; 37142; 37143; 37144; 37145; 37146; 37147; 37148; 37149; 37150; 37151; 37152; 37153; 37154; 37155; 37156; 37158; 37159; 37160; 37161; 37162; 37163; 37164; 37165; 37166; 37167; 37168; 37169; 37170; 37171; 37172; 37173; 37174; 37176; 37177; 37178; 37179; 37182; 37183; 37184; 37185; 37187; 37188; 37189; 37190; 37191; 37192; 37193; 37194; 37195; 37196; 37197; 37198; 37199; 37200; 37202; 37203; 37205; 37206; 37207; 37208; 37210; 37215; 37216; 37217; 37218; 37219; 37220; 37221; 37224; 37225; 37226; 37228; 37230];
  [37231; 37234; 37235; 37236; 37237; 37239; 37240; 37241; 37242; 37248; 37249; 37250; 37251; 37252; 37253; 37254; 37255; 37257; 37258; 37259; 37261; 37263; 37264; 37265; 37266; 37267; 37273; 37274; 37275; 37276; 37277; 37278; 37279; 37280; 37281; 37282; 37283; 37285; 37287; 37288; 37290; 37291; 37292; 37293; 37294; 37295; 37296; 37297; 37298; 37299; 37300; 37301; 37303; 37305; 37306; 37308; 37309; 37310; 37312; 37313; 37314; 37315; 37317; 37318; 37319; 37321; 37323; 37324; 37325; 37326; 37327; 37328; 37329; 37331; 37332; 37333; 37334; 37335; 37336; 37337; 37338; 37340; 37341; 37346; 37347; 37348; 37350; 37351; 37352; 37353; 37354; 37355; 37356; 37357; 37358; 37361; 37363; 37364; 37365; 37367];
  [37368; 37369; 37373; 37375; 37376; 37377; 37378; 37379; 37380; 37381; 37382; 37383; 37385; 37386; 37388; 37389; 37391; 37392; 37393; 37394; 37396; 37397; 37398; 37399; 37401; 37402; 37404; 37406; 37411; 37412; 37413; 37414; 37415; 37421; 37422; 37424; 37425; 37426; 37427; 37428; 37430; 37431; 37432; 37433; 37434; 37436; 37437; 37438; 37439; 37440; 37445; 37446; 37448; 37449; 37450; 37451; 37452; 37453; 37454; 37455; 37456; 37457; 37458; 37459; 37460; 37462; 37463; 37466; 37467; 37470; 37472; 37473; 37475; 37476; 37477; 37478; 37479; 37484; 37485; 37487; 37488; 37490; 37494; 37496; 37497; 37498; 37499; 37500; 37501; 37502; 37503; 37504; 37506; 37507; 37509; 37510; 37511; 37512; 37514; 37515];
  [37516; 37517; 37518; 37521; 37523; 37524; 37525; 37526; 37527; 37528; 37529; 37530; 37531; 37532; 37533; 37536; 37537; 37538; 37539; 37540; 37541; 37542; 37543; 37544; 37545; 37546; 37547; 37548; 37554; 37555; 37556; 37557; 37558; 37559; 37561; 37563; 37564; 37568; 37569; 37570; 37571; 37572; 37573; 37574; 37575; 37576; 37577; 37578; 37579; 37580; 37581; 37582; 37583; 37584; 37585; 37586; 37587; 37589; 37591; 37592; 37593; 37595; 37597; 37598; 37599; 37600; 37601; 37604; 37606; 37607; 37608; 37609; 37610; 37614; 37615; 37616; 37617; 37623; 37624; 37625; 37626; 37627; 37628; 37630; 37631; 37632; 37633; 37634; 37636; 37638; 37640; 37641; 37643; 37644; 37645; 37646; 37647; 37648; 37650; 37651];
  [37652; 37653; 37654; 37656; 37657; 37658; 37659; 37661; 37662; 37663; 37664; 37665; 37666; 37667; 37668; 37669; 37670; 37671; 37672; 37673; 37674; 37675; 37677; 37678; 37679; 37683; 37684; 37685; 37686; 37688; 37689; 37692; 37696; 37697; 37700; 37702; 37703; 37705; 37706; 37707; 37708; 37709; 37710; 37711; 37712; 37713; 37714; 37716; 37717; 37718; 37719; 37720; 37721; 37722; 37723; 37724; 37726; 37728; 37729; 37730; 37731; 37732; 37733; 37735; 37738; 37740; 37741; 37744; 37745; 37749; 37750; 37751; 37753; 37754; 37755; 37756; 37758; 37760; 37762; 37763; 37765; 37768; 37769; 37770; 37772; 37773; 37774; 37775; 37777; 37778; 37780; 37781; 37782; 37783; 37784; 37785; 37786; 37787; 37789; 37790];
  [37791; 37793; 37794; 37795; 37796; 37797; 37798; 37799; 37800; 37801; 37802; 37804; 37806; 37807; 37808; 37809; 37810; 37811; 37812; 37813; 37815; 37824; 37826; 37827; 37828; 37831; 37832; 37834; 37836; 37837; 37838; 37839; 37840; 37841; 37842; 37843; 37844; 37845; 37846; 37847; 37848; 37849; 37850; 37852; 37853; 37854; 37855; 37857; 37858; 37859; 37860; 37862; 37863; 37864; 37868; 37870; 37872; 37873; 37877; 37878; 37879; 37880; 37881; 37882; 37883; 37884; 37885; 37886; 37887; 37888; 37891; 37894; 37895; 37897; 37898; 37899; 37900; 37901; 37902; 37903; 37904; 37905; 37906; 37907; 37908; 37909; 37910; 37912; 37913; 37915; 37920; 37928; 37929; 37930; 37931; 37932; 37934; 37936; 37937; 37938];
  [37939; 37941; 37942; 37943; 37944; 37945; 37946; 37947; 37948; 37949; 37951; 37952; 37954; 37955; 37956; 37957; 37958; 37959; 37960; 37961; 37962; 37963; 37964; 37967; 37968; 37969; 37970; 37973; 37975; 37981; 37982; 37984; 37986; 37987; 37988; 37992; 37993; 37994; 37995; 37997; 37998; 37999; 38000; 38001; 38002; 38003; 38004; 38005; 38006; 38007; 38008; 38011; 38012; 38013; 38014; 38015; 38016; 38017; 38018; 38019; 38263; 38266; 38267; 38268; 38269; 38272; 38274; 38275; 38278; 38280; 38281; 38283; 38284; 38285; 38286; 38287; 38288; 38289; 38290; 38291; 38292; 38296; 38299; 38300; 38302; 38303; 38305; 38307; 38308; 38309; 38312; 38313; 38315; 38316; 38317; 38318; 38320; 38321; 38325; 38326];
  [38327; 38329; 38330; 38331; 38332; 38333; 38334; 38335; 38336; 38339; 38341; 38342; 38343; 38344; 38345; 38346; 38347; 38348; 38349; 38352; 38353; 38354; 38355; 38356; 38357; 38358; 38362; 38363; 38364; 38366; 38367; 38368; 38369; 38370; 38371; 38372; 38373; 38428; 38430; 38432; 38433; 38434; 38435; 38436; 38440; 38442; 38444; 38445; 38446; 38447; 38448; 38449; 38450; 38457; 38458; 38459; 38460; 38461; 38463; 38464; 38466; 38467; 38468; 38474; 38475; 38476; 38477; 38478; 38479; 38480; 38481; 38483; 38484; 38488; 38491; 38492; 38493; 38494; 38495; 38497; 38498; 38499; 38500; 38506; 38507; 38508; 38509; 38511; 38512; 38513; 38514; 38515; 38516; 38517; 38518; 38519; 38520; 38524; 38525; 38526];
  [38528; 38531; 38532; 38533; 38534; 38535; 38536; 38537; 38538; 38539; 38541; 38542; 38545; 38546; 38547; 38548; 38549; 38551; 38552; 38553; 38555; 38556; 38558; 38561; 38562; 38564; 38565; 38567; 38568; 38569; 38570; 38572; 38574; 38576; 38577; 38579; 38580; 38582; 38584; 38585; 38587; 38588; 38591; 38592; 38593; 38594; 38595; 38596; 38597; 38598; 38599; 38600; 38601; 38602; 38603; 38604; 38605; 38606; 38610; 38611; 38612; 38613; 38614; 38615; 38616; 38617; 38618; 38619; 38620; 38621; 38622; 38623; 38625; 38626; 38627; 38629; 38632; 38633; 38634; 38639; 38640; 38641; 38642; 38645; 38646; 38647; 38648; 38649; 38650; 38651; 38653; 38655; 38656; 38658; 38660; 38661; 38662; 38663; 38664; 38665];
  [38667; 38669; 38670; 38671; 38672; 38673; 38674; 38675; 38678; 38680; 38681; 38684; 38685; 38686; 38687; 38688; 38690; 38691; 38692; 38693; 38694; 38695; 38696; 38697; 38698; 38699; 38700; 38702; 38703; 38704; 38706; 38709; 38712; 38713; 38714; 38717; 38718; 38719; 38722; 38723; 38724; 38726; 38727; 38728; 38729; 38731; 38738; 38742; 38744; 38746; 38747; 38748; 38750; 38752; 38753; 38754; 38758; 38760; 38761; 38762; 38764; 38766; 38768; 38770; 38771; 38772; 38774; 38775; 38776; 38778; 38779; 38780; 38781; 38782; 38783; 38784; 38785; 38786; 38787; 38788; 38789; 38791; 38792; 38794; 38795; 38797; 38798; 38799; 38804; 38807; 38808; 38809; 38810; 38812; 38813; 38814; 38816; 38817; 38818; 38819];
  [38820; 38821; 38822; 38824; 38826; 38827; 38828; 38829; 38830; 38835; 38838; 38839; 38841; 38843; 38845; 38847; 38849; 38851; 38852; 38853; 38854; 38855; 38857; 38859; 38860; 38861; 38862; 38863; 38864; 38867; 38868; 38869; 38870; 38871; 38872; 38873; 38876; 38877; 38878; 38879; 38881; 38883; 38885; 38893; 38896; 38897; 38899; 38902; 38904; 38905; 38906; 38907; 38909; 38910; 38911; 38912; 38913; 38914; 38915; 38916; 38917; 38918; 38919; 38920; 38922; 38924; 38925; 38926; 38927; 38928; 38929; 38930; 38931; 38932; 38934; 38935; 38936; 38939; 38940; 38941; 38942; 38944; 38945; 38948; 38950; 38951; 38952; 38953; 38955; 38957; 38959; 38960; 38962; 38965; 38967; 38968; 38969; 38971; 38977; 38979];
  [38980; 38981; 38982; 38984; 38985; 38986; 38988; 38989; 38990; 38991; 38992; 38993; 38994; 38995; 38999; 39000; 39001; 39003; 39004; 39005; 39006; 39007; 39008; 39010; 39011; 39012; 39013; 39015; 39017; 39018; 39019; 39020; 39023; 39024; 39025; 39026; 39027; 39028; 39080; 39081; 39084; 39085; 39086; 39087; 39089; 39090; 39091; 39094; 39096; 39098; 39099; 39100; 39101; 39102; 39103; 39104; 39105; 39106; 39108; 39110; 39113; 39115; 39116; 39131; 39135; 39138; 39139; 39141; 39143; 39145; 39146; 39147; 39149; 39151; 39154; 39156; 39158; 39161; 39162; 39164; 39165; 39166; 39168; 39170; 39171; 39173; 39175; 39176; 39177; 39178; 39180; 39184; 39185; 39186; 39187; 39188; 39189; 39190; 39191; 39192];
  [39194; 39195; 39198; 39199; 39201; 39204; 39205; 39207; 39208; 39209; 39210; 39211; 39212; 39213; 39214; 39215; 39216; 39217; 39218; 39219; 39221; 39226; 39228; 39229; 39230; 39231; 39233; 39235; 39237; 39239; 39240; 39241; 39243; 39244; 39246; 39248; 39249; 39250; 39251; 39252; 39253; 39254; 39255; 39256; 39257; 39259; 39260; 39262; 39263; 39265; 39318; 39319; 39320; 39321; 39324; 39325; 39326; 39329; 39331; 39332; 39333; 39334; 39335; 39336; 39339; 39340; 39341; 39342; 39343; 39344; 39345; 39346; 39347; 39348; 39349; 39353; 39354; 39355; 39357; 39361; 39362; 39363; 39367; 39369; 39371; 39372; 39373; 39374; 39375; 39376; 39377; 39378; 39379; 39380; 39381; 39382; 39383; 39384; 39385; 39387];
  [39388; 39389; 39391; 39394; 39395; 39396; 39397; 39399; 39401; 39402; 39404; 39405; 39406; 39408; 39409; 39412; 39414; 39415; 39416; 39417; 39418; 39419; 39420; 39421; 39422; 39423; 39425; 39426; 39427; 39428; 39429; 39430; 39431; 39433; 39434; 39435; 39437; 39438; 39439; 39441; 39444; 39445; 39446; 39449; 39450; 39451; 39452; 39453; 39454; 39456; 39458; 39459; 39460; 39461; 39463; 39465; 39466; 39467; 39468; 39469; 39470; 39472; 39473; 39474; 39476; 39477; 39478; 39479; 39480; 39481; 39482; 39485; 39486; 39487; 39488; 39489; 39490; 39491; 39492; 39493; 39494; 39496; 39497; 39498; 39500; 39501; 39502; 39503; 39504; 39506; 39507; 39508; 39509; 39510; 39511; 39513; 39514; 39515; 39518; 39519];
  [39520; 39522; 39524; 39525; 39526; 39527; 39528; 39529; 39530; 39531; 39592; 39595; 39597; 39599; 39600; 39601; 39603; 39604; 39607; 39608; 39609; 39611; 39612; 39614; 39615; 39616; 39617; 39618; 39622; 39623; 39626; 39629; 39631; 39632; 39633; 39634; 39635; 39636; 39637; 39638; 39640; 39644; 39647; 39649; 39651; 39654; 39655; 39659; 39660; 39661; 39662; 39663; 39665; 39666; 39667; 39670; 39671; 39673; 39674; 39675; 39676; 39677; 39678; 39681; 39683; 39684; 39685; 39686; 39688; 39690; 39691; 39692; 39693; 39694; 39696; 39697; 39698; 39701; 39702; 39703; 39704; 39705; 39706; 39710; 39711; 39712; 39714; 39715; 39716; 39717; 39719; 39720; 39721; 39723; 39726; 39727; 39729; 39730; 39731; 39733];
  [39735; 39738; 39739; 39740; 39742; 39743; 39745; 39746; 39747; 39748; 39749; 39750; 39752; 39754; 39755; 39756; 39757; 39758; 39759; 39761; 39762; 39764; 39765; 39766; 39768; 39769; 39770; 39771; 39775; 39776; 39777; 39780; 39782; 39783; 39784; 39788; 39791; 39792; 39793; 39796; 39797; 39798; 39799; 39802; 39803; 39804; 39805; 39806; 39808; 39810; 39811; 39813; 39814; 39815; 39816; 39824; 39825; 39826; 39827; 39829; 39834; 39835; 39838; 39840; 39841; 39842; 39844; 39845; 39846; 39848; 39850; 39851; 39853; 39854; 39855; 39861; 39862; 39864; 39865; 39869; 39871; 39872; 39873; 39875; 39876; 39878; 39879; 39880; 39881; 39882; 39891; 39892; 39893; 39894; 39895; 39897; 39898; 39899; 39900; 39902];
  [39904; 39905; 39906; 39908; 39909; 39910; 39911; 39912; 39914; 39915; 39916; 39920; 39927; 39928; 39933; 39941; 39942; 39943; 39944; 39945; 39947; 39949; 39950; 39954; 39955; 39956; 39959; 39964; 39965; 39969; 39971; 39972; 39973; 39976; 39977; 39979; 39980; 39981; 39985; 39986; 39987; 39988; 39990; 39991; 39993; 39995; 39996; 39997; 39998; 39999; 40000; 40001; 40004; 40006; 40008; 40009; 40010; 40011; 40012; 40013; 40014; 40016; 40018; 40020; 40021; 40022; 40023; 40024; 40025; 40030; 40031; 40032; 40034; 40035; 40038; 40039; 40040; 40045; 40046; 40049; 40051; 40052; 40053; 40055; 40056; 40057; 40058; 40165; 40166; 40167; 40169; 40170; 40173; 40177; 40178; 40179; 40180; 40181; 40182; 40183];
  [40185; 40186; 40187; 40188; 40189; 40191; 40192; 40195; 40196; 40197; 40198; 40199; 40200; 40201; 40208; 40210; 40212; 40213; 40215; 40216; 40217; 40219; 40221; 40222; 40223; 40224; 40226; 40227; 40229; 40230; 40232; 40233; 40237; 40238; 40239; 40240; 40241; 40243; 40244; 40246; 40247; 40248; 40251; 40253; 40254; 40255; 40256; 40257; 40258; 40259; 40261; 40266; 40267; 40268; 40271; 40273; 40274; 40275; 40276; 40278; 40279; 40280; 40281; 40282; 40283; 40284; 40285; 40287; 40288; 40289; 40295; 40296; 40297; 40298; 40299; 40300; 40303; 40304; 40305; 40306; 40307; 40308; 40309; 40311; 40312; 40313; 40315; 40317; 40319; 40320; 40321; 40322; 40324; 40325; 40326; 40327; 40328; 40329; 40330; 40331];
  [40332; 40336; 40338; 40340; 40342; 40343; 40344; 40345; 40346; 40347; 40348; 40349; 40350; 40351; 40352; 40353; 40354; 40355; 40356; 40358; 40359; 40360; 40361; 40362; 40364; 40365; 40367; 40369; 40370; 40371; 40372; 40373; 40374; 40375; 40376; 40377; 40378; 40379; 40380; 40382; 40383; 40385; 40386; 40387; 40389; 40391; 40392; 40394; 40395; 40396; 40397; 40398; 40399; 40400; 40401; 40402; 40403; 40405; 40406; 40407; 40408; 40409; 40410; 40411; 40412; 40413; 40414; 40415; 40417; 40418; 40419; 40420; 40421; 40422; 40424; 40425; 40427; 40428; 40429; 40430; 40431; 40432; 40434; 40435; 40436; 40437; 40438; 40439; 40440; 40441; 40442; 40443; 40445; 40446; 40447; 40448; 40449; 40450; 40451; 40452];
  [40453; 40454; 40455; 40457; 40459; 40461; 40463; 40464; 40465; 40466; 40467; 40468; 40469; 40471; 40473; 40474; 40475; 40477; 40478; 40565; 40569; 40570; 40572; 40573; 40575; 40576; 40578; 40579; 40582; 40583; 40584; 40585; 40586; 40587; 40588; 40589; 40590; 40593; 40594; 40595; 40596; 40599; 40601; 40602; 40603; 40604; 40605; 40607; 40608; 40609; 40612; 40613; 40615; 40617; 40621; 40622; 40624; 40628; 40629; 40630; 40631; 40635; 40636; 40638; 40640; 40642; 40643; 40648; 40652; 40653; 40654; 40655; 40656; 40657; 40659; 40660; 40661; 40662; 40664; 40666; 40667; 40668; 40669; 40670; 40671; 40672; 40676; 40677; 40678; 40679; 40680; 40683; 40685; 40686; 40687; 40688; 40690; 40691; 40692; 40693];
  [40694; 40695; 40697; 40698; 40699; 40700; 40701; 40703; 40704; 40705; 40710; 40711; 40713; 40714; 40718; 40719; 40720; 40722; 40723; 40725; 40726; 40728; 40729; 40730; 40731; 40732; 40734; 40736; 40738; 40739; 40740; 40741; 40744; 40745; 40746; 40747; 40748; 40749; 40750; 40751; 40752; 40753; 40754; 40755; 40756; 40757; 40758; 40759; 40760; 40763; 40765; 40766; 40768; 40769; 40770; 40771; 40774; 40775; 40776; 40777; 40778; 40779; 40780; 40781; 40782; 40783; 40786; 40788; 40789; 40790; 40791; 40792; 40793; 40795; 40796; 40797; 40798; 40799; 40800; 40801; 40803; 40804; 40805; 40806; 40807; 40810; 40811; 40812; 40814; 40815; 40816; 40817; 40818; 40820; 40821; 40822; 40823; 40824; 40825; 40826];
  [40827; 40830; 40845; 40848; 40849; 40850; 40852; 40853; 40856; 40860; 40864; 40866; 40868; 40880; 40881; 64012; 64013; 65072; 65073; 65075; 65076; 65077; 65078; 65079; 65080; 65081; 65082; 65083; 65084; 65085; 65086; 65087; 65088; 65089; 65090; 65091; 65092; 65097; 65098; 65099; 65100; 65101; 65102; 65103; 65104; 65105; 65106; 65108; 65109; 65110; 65111; 65113; 65114; 65115; 65116; 65117; 65118; 65119; 65120; 65121; 65122; 65123; 65124; 65125; 65126; 65128; 65129; 65130; 65131; 65281; 65282; 65283; 65284; 65285; 65286; 65287; 65288; 65289; 65290; 65291; 65292; 65293; 65294; 65295; 65296; 65297; 65298; 65299; 65300; 65301; 65302; 65303; 65304; 65305; 65306; 65307; 65308; 65309; 65310; 65311];
  [65312; 65313; 65314; 65315; 65316; 65317; 65318; 65319; 65320; 65321; 65322; 65323; 65324; 65325; 65326; 65327; 65328; 65329; 65330; 65331; 65332; 65333; 65334; 65335; 65336; 65337; 65338; 65339; 65340; 65341; 65343; 65345; 65346; 65347; 65348; 65349; 65350; 65351; 65352; 65353; 65354; 65355; 65356; 65357; 65358; 65359; 65360; 65361; 65362; 65363; 65364; 65365; 65366; 65367; 65368; 65369; 65370; 65371; 65372; 65373; 65374; 65504; 65505; 65506; 65507; 65508; 65509; 65517; 131210; 131276; 131352; 131521; 131588; 131742; 131744; 131813; 131911; 131966; 131968; 132021; 132041; 132127; 132231; 132423; 132494; 132517; 132531; 132547; 132575; 132694; 133411; 133460; 134031; 134114; 134143; 134202; 134263; 134355; 134450; 134477];
  [134478; 134516; 134773; 134877; 135348; 135740; 135759; 135941; 135994; 136054; 136078; 136214; 136276; 136343; 136598; 136723; 136766; 136850; 136888; 136897; 136917; 136935; 136936; 136973; 136998; 137072; 137073; 137138; 137180; 137211; 137212; 137256; 137257; 137335; 137374; 137431; 137489; 137560; 137603; 137608; 137691; 137780; 137803; 138052; 138405; 138745; 138780; 138807; 138813; 138916; 139114; 139337; 139516; 139562; 139635; 140240; 140401; 140427; 140433; 140525; 140563; 140592; 140628; 140828; 140904; 140952; 141236; 141261; 141407; 141485; 141505; 141559; 141696; 142755; 142861; 142902; 143428; 143435; 143486; 143780; 143781; 143816; 143863; 143864; 143865; 143921; 143923; 144010; 144044; 144308; 144358; 144384; 144495; 144845; 144896; 144956; 144985; 145155; 145197; 145346];
  [146139; 146266; 146585; 146632; 146633; 146876; 146877; 146991; 146992; 147196; 147328; 147330; 147380; 147383; 147397; 147435; 147436; 147440; 147513; 147514; 147517; 147589; 147596; 147601; 147775; 147776; 147780; 147797; 147798; 147799; 147807; 147876; 147877; 147917; 147938; 148087; 148088; 148161; 148323; 148325; 148380; 148533; 148570; 148668; 149539; 149745; 149760; 149761; 149772; 149811; 149824; 149826; 149876; 149887; 149890; 149901; 149903; 149924; 149929; 149943; 149983; 150011; 150034; 150049; 150050; 150051; 150052; 150054; 150055; 150056; 150137; 150156; 150182; 150193; 150517; 150803; 151426; 151709; 151933; 152038; 152096; 152144; 152339; 153056; 153093; 153373; 153458; 153687; 154060; 155779; 156125; 156661; 157832; 157966; 157969; 158254; 158483; 158504; 158545; 158547];
  [158643; 158846; 158849; 159013; 159017; 159018; 159136; 159137; 159142; 159211; 159301; 159342; 159346; 159442; 159604; 159647; 159649; 159992; 160038; 161287; 161292; 162318; 162387; 162436; 162617; 164994; 165364; 165547; 165892; 165931; 166244; 166248; 166314; 166332; 166372; 166441; 166454; 166474; 166555; 166622; 166623; 166689; 166699; 166758; 166799; 166813; 166888; 166915; 167596; 167602; 167641; 168173; 168205; 168304; 168348; 170333; 172368; 194708; 194726]].

(** indexes_pointer.cpp:6 *)
Definition index_pointer_big5_1 : list Z := concat [
  [5103; 10951; 5120; 5205; 5137; 5040; 5135; 5136; 11300; 11301; 11299; 11295; 11297; 11296; 11303; 11298; 11294; 11302; 10952; 5430; 5428; 5429; 5431; 5123; 5427; 5342; 5343; 5344; 5345; 5346; 5347; 5348; 5349; 5350; 5351; 5352; 5353; 5354; 5355; 5356; 5357; 5358; 5359; 5360; 5361; 5362; 5363; 5364; 5365; 5366; 5367; 5368; 5369; 5370; 5371; 5372; 5373; 5374; 5375; 5376; 5377; 5378; 5379; 5380; 5381; 5382; 5383; 5384; 5385; 5386; 5387; 5388; 5389; 11141; 11135; 11136; 11137; 11138; 11139; 11140; 11142; 11143; 11144; 11145; 11146; 11147; 11148; 11149; 11150; 11151; 11152; 11153; 11154; 11155; 11156; 11157; 11158; 11159; 11160; 11161];
  [11162; 11163; 11164; 11165; 11166; 11167; 11168; 11169; 11170; 11171; 11172; 11173; 11175; 11176; 11177; 11178; 11179; 11180; 11181; 11182; 11183; 11184; 11185; 11186; 11187; 11188; 11189; 11190; 11191; 11192; 11193; 11194; 11195; 11196; 11197; 11198; 11199; 11200; 11174; 5046; 5048; 5091; 5092; 5093; 5094; 5036; 5035; 5029; 5098; 5097; 5102; 5465; 5191; 5119; 5192; 11259; 11260; 5268; 5269; 5270; 5271; 5272; 5273; 5274; 5275; 5276; 5277; 10916; 10917; 10918; 10919; 10920; 10921; 10922; 10923; 10924; 10925; 5172; 5170; 5173; 5171; 5174; 5175; 5177; 5176; 11202; 11203; 11201; 5182; 5138; 5145; 5158; 5157; 5179; 5178; 5154; 5155; 5162; 5163; 5165];
  [5164; 5146; 5144; 5147; 5142; 5143; 5168; 5169; 5156; 5159; 5432; 5433; 5434; 5435; 5436; 5437; 5438; 5439; 5440; 5441; 5442; 5443; 5444; 5445; 5446; 5447; 5448; 5449; 5450; 5451; 5452; 5453; 5454; 5455; 5456; 5457; 5458; 5459; 5460; 5461; 5462; 5463; 5464; 10896; 10897; 10898; 10899; 10900; 10901; 10902; 10903; 10904; 10905; 10906; 10907; 10908; 10909; 10910; 10911; 10912; 10913; 10914; 10915; 5236; 5237; 5239; 5240; 5241; 5242; 5234; 5233; 5232; 5231; 5230; 5247; 18991; 18990; 18972; 18981; 18963; 18974; 18983; 18965; 18978; 18987; 18969; 18980; 18989; 18971; 5248; 18975; 18984; 18966; 5250; 18977; 18986; 18968; 18973; 18982; 18964];
  [18979; 18988; 18970; 5249; 18976; 18985; 18967; 5243; 5244; 5246; 5245; 5255; 5256; 5257; 5050; 5215; 5216; 5217; 5218; 5219; 5220; 5221; 5222; 5229; 5228; 5227; 5226; 5225; 5224; 5223; 5235; 5238; 5115; 5114; 5108; 5107; 5117; 5116; 5113; 5112; 5105; 5109; 5106; 5251; 5252; 5254; 5253; 5111; 5110; 5166; 5167; 10965; 11263; 11264; 11265; 11266; 11267; 11268; 11269; 11270; 11271; 11272; 11273; 11274; 11275; 11276; 11277; 11278; 11279; 11280; 11281; 11282; 11283; 11284; 11285; 11286; 11287; 11288; 11289; 11290; 10940; 5024; 5026; 5027; 5104; 10959; 10960; 10961; 5073; 5074; 5069; 5070; 5077; 5078; 5081; 5082; 5065; 5066; 5186; 5061];
  [5062; 5095; 5096; 5278; 5279; 5280; 5281; 5282; 5283; 5284; 5285; 5286; 10966; 10967; 10968; 10969; 10970; 10971; 10972; 10973; 10974; 10975; 10976; 10977; 10978; 10979; 10980; 10981; 10982; 10983; 10984; 10985; 10986; 10987; 10988; 10989; 10990; 10991; 10992; 10993; 10994; 10995; 10996; 10997; 10998; 10999; 11000; 11001; 11002; 11003; 11004; 11005; 11006; 11007; 11008; 11009; 11010; 11011; 11012; 11013; 11014; 11015; 11016; 11017; 11018; 11019; 11020; 11021; 11022; 11023; 11024; 11025; 11026; 11027; 11028; 11029; 11030; 11031; 11032; 11033; 11034; 11035; 11036; 11037; 11038; 11039; 11040; 11041; 11042; 11043; 11044; 11045; 11046; 11047; 11048; 11261; 11262; 10955; 10956; 11049];
  [11050; 11051; 11052; 11053; 11054; 11055; 11056; 11057; 11058; 11059; 11060; 11061; 11062; 11063; 11064; 11065; 11066; 11067; 11068; 11069; 11070; 11071; 11072; 11073; 11074; 11075; 11076; 11077; 11078; 11079; 11080; 11081; 11082; 11083; 11084; 11085; 11086; 11087; 11088; 11089; 11090; 11091; 11092; 11093; 11094; 11095; 11096; 11097; 11098; 11099; 11100; 11101; 11102; 11103; 11104; 11105; 11106; 11107; 11108; 11109; 11110; 11111; 11112; 11113; 11114; 11115; 11116; 11117; 11118; 11119; 11120; 11121; 11122; 11123; 11124; 11125; 11126; 11127; 11128; 11129; 11130; 11131; 11132; 11133; 11134; 10962; 10953; 10954; 5390; 5391; 5392; 5393; 5394; 5395; 5396; 5397; 5398; 5399; 5400; 5401];
  [5402; 5403; 5404; 5405; 5406; 5407; 5408; 5409; 5410; 5411; 5412; 5413; 5414; 5415; 5416; 5417; 5418; 5419; 5420; 5421; 5422; 5423; 5424; 5425; 5426; 11204; 11258; 5118; 5202; 5203; 5197; 5198; 5199; 5201; 5204; 5200; 5161; 5160; 5196; 19037; 19202; 19212; 19184; 19349; 19005; 19191; 19215; 19661; 19532; 19238; 19241; 19566; 19681; 19249; 19512; 19040; 19724; 19290; 19295; 19313; 19104; 19379; 19347; 19478; 19393; 19409; 19407; 19131; 19320; 19451; 19480; 19487; 19296; 19497; 19501; 19064; 19533; 19477; 19579; 19576; 19336; 19247; 19152; 19348; 19603; 19353; 19638; 19778; 19103; 19671; 19709; 19123; 19257; 19422; 19602; 19002; 19484; 11209; 19107; 19526];
  [19460; 19165; 19572; 19149; 19258; 19321; 19276; 19647; 19686; 19420; 19157; 19267; 5495; 5497; 5498; 11309; 5517; 5515; 5518; 5516; 11310; 5560; 11319; 11317; 5559; 5558; 5654; 5653; 5652; 5655; 5651; 5778; 5779; 6220; 5519; 5561; 11320; 5562; 11339; 5945; 11697; 10926; 5520; 5563; 5656; 11340; 10927; 11304; 5499; 5522; 11311; 5523; 19128; 5564; 5657; 5659; 5658; 5780; 5781; 6221; 6998; 5496; 11206; 11305; 5500; 5525; 5524; 5782; 6222; 7455; 13042; 8418; 14366; 14367; 10928; 5501; 5566; 6223; 5502; 11312; 5526; 5567; 5569; 11321; 5570; 5568; 5783; 6224; 6225; 6599; 10929; 5527; 5571; 5784; 5786; 5785; 5946; 6226; 6227; 6600];
  [6601; 6999; 14368; 19304; 18485; 5503; 5573; 5572; 11322; 5574; 5580; 5575; 5576; 11324; 11323; 5578; 5579; 5577; 5662; 5663; 5664; 5665; 5661; 5668; 11346; 11342; 10958; 5669; 5685; 11344; 5666; 5667; 5660; 11341; 11343; 5799; 11382; 5796; 5800; 11392; 11380; 5797; 11384; 5798; 5801; 5787; 11383; 5802; 11387; 11391; 11388; 11385; 5788; 5790; 5803; 5792; 11377; 5795; 5793; 5794; 11393; 11390; 11381; 5791; 11378; 5789; 11386; 11389; 11379; 11499; 5968; 5955; 11500; 5952; 5970; 5960; 5959; 11488; 5963; 5958; 11493; 11501; 11497; 5961; 5964; 5949; 5973; 11490; 11709; 5947; 5969; 5948; 5956; 5957; 11495; 11491; 5962; 5954; 11487; 5950];
  [11498; 5971; 5974; 5953; 5966; 5972; 5951; 11496; 5967; 11502; 11489; 5965; 11492; 11494; 6241; 11711; 11723; 6233; 11724; 6228; 6238; 6231; 11705; 6239; 11704; 11708; 11715; 11713; 6247; 6242; 11699; 11701; 6244; 6232; 11702; 11714; 11721; 6237; 11707; 11700; 6236; 11703; 6240; 11706; 6235; 6230; 6245; 11716; 6246; 11720; 11718; 11722; 6243; 11710; 11698; 11712; 6234; 11717; 6229; 11719; 19020; 6616; 6604; 12058; 12066; 6603; 6611; 6623; 12072; 12070; 12065; 6605; 12071; 12061; 6619; 6610; 6618; 12056; 12068; 12059; 6614; 12060; 12055; 6621; 6608; 6617; 6607; 12057; 12062; 12069; 6615; 6612; 12064; 6620; 12067; 12063; 6609; 6622; 6613; 6606];
  [6602; 12073; 7025; 7003; 7019; 7024; 12513; 12512; 12517; 12518; 7006; 7015; 7028; 7016; 12506; 7009; 12507; 19022; 7030; 7021; 7000; 7001; 12526; 7472; 7014; 7013; 12508; 7017; 13058; 7008; 12519; 7023; 7022; 7012; 12511; 12520; 12505; 7011; 12521; 7020; 12509; 7002; 7005; 7004; 12522; 7018; 7007; 7027; 7029; 12516; 7026; 12524; 12510; 12525; 12514; 12523; 12515; 7010; 13066; 13054; 7460; 13059; 13065; 7459; 13052; 7463; 13056; 13049; 7461; 13053; 7466; 7471; 13070; 13048; 7467; 13069; 7462; 13055; 7458; 13050; 13046; 13060; 13047; 13045; 13057; 13063; 13064; 7464; 13686; 13061; 13044; 13062; 7474; 13067; 7473; 13043; 13051; 13068; 7469; 7468];
  [7465; 7470; 7456; 7457; 7952; 13689; 13682; 7949; 13690; 13680; 13683; 7948; 13684; 19490; 7951; 13688; 13678; 13677; 7953; 7954; 7950; 7955; 13676; 13687; 13685; 13679; 7947; 13681; 8425; 8419; 14372; 8428; 14378; 14381; 8421; 8422; 14375; 8420; 14384; 8426; 14385; 14380; 8427; 14369; 8424; 14370; 14379; 14377; 14373; 8423; 14371; 8429; 14376; 14383; 14374; 14382; 8876; 8873; 8874; 15066; 15058; 8872; 8869; 15059; 8871; 15062; 15064; 15071; 19361; 15070; 15065; 8868; 15057; 8866; 15060; 8877; 15063; 15067; 8870; 8867; 15069; 15068; 8875; 15061; 9256; 15681; 15678; 9257; 9255; 15685; 15682; 15675; 9254; 19036; 9258; 15676; 9253; 9261; 15679; 15680];
  [9259; 9260; 15686; 15683; 15684; 19038; 9649; 16321; 9646; 16318; 9648; 9650; 16319; 9647; 16320; 16317; 9945; 16890; 9946; 16888; 16889; 16887; 16886; 16891; 9944; 17356; 17357; 15677; 17355; 9947; 10393; 17721; 17722; 10636; 10637; 18307; 18306; 10720; 10719; 18636; 5504; 5528; 5582; 5581; 5671; 5670; 5806; 5805; 5807; 5804; 5976; 5975; 5977; 6249; 6248; 6250; 6624; 5206; 12527; 5207; 7475; 5209; 5208; 13691; 19044; 5210; 8878; 5211; 5505; 5583; 5808; 6251; 19046; 5506; 5586; 5584; 5585; 5809; 5978; 6253; 6252; 6254; 7031; 9651; 10930; 11318; 11211; 5672; 5673; 5810; 11503; 6626; 6625; 12529; 12528; 7476; 10931; 5587; 11325; 11725];
  [6627; 7034; 7032; 7033; 9652; 10932; 5674; 5811; 11394; 19058; 19067; 19004; 5979; 5980; 19059; 11504; 11726; 6255; 11727; 12531; 12532; 7037; 19552; 12533; 19061; 12530; 7038; 7036; 7035; 12534; 19062; 13071; 19063; 19065; 13692; 14386; 15072; 9262; 9653; 16322; 19589; 5507; 5521; 19068; 19070; 7477; 7957; 8879; 19369; 11306; 5588; 5677; 5675; 5676; 6256; 5508; 5509; 11208; 5529; 5589; 5590; 5591; 11396; 5678; 19075; 11347; 5815; 11397; 5813; 5814; 11395; 5816; 5812; 11505; 6575; 11506; 11507; 5982; 5981; 19076; 5985; 5983; 5984; 6262; 6261; 11732; 11729; 11730; 11728; 6263; 6259; 6258; 6260; 6257; 19077; 6264; 6629; 12074; 11731; 6634];
  [12075; 6630; 6633; 6632; 6631; 6628; 12537; 7041; 12540; 7039; 19079; 12536; 7042; 7040; 7043; 12538; 12539; 12535; 12541; 7961; 7478; 13072; 13074; 13073; 13075; 7479; 7958; 7959; 7960; 8431; 14388; 14387; 14389; 14390; 8432; 8430; 15073; 15074; 8881; 8880; 15412; 9263; 9264; 9265; 9267; 15687; 15688; 9266; 9654; 9655; 19080; 17723; 18309; 18308; 18637; 5510; 5680; 5679; 5817; 11398; 5987; 5988; 5986; 5989; 11508; 11509; 19078; 19081; 6266; 11733; 6265; 12076; 6638; 12077; 6637; 19082; 6635; 6636; 12542; 19252; 7480; 13077; 7483; 13076; 7667; 7482; 7481; 7964; 7963; 7962; 8433; 19085; 8436; 8437; 8435; 8434; 15075; 15076; 15690; 9268];
  [15689; 9656; 16892; 9948; 17724; 10540; 10933; 5530; 5592; 11326; 5593; 5594; 5681; 5682; 5818; 11510; 11734; 11735; 6639; 12543; 7485; 7484; 13694; 13693; 5511; 5595; 5683; 7486; 11307; 11348; 5684; 11400; 5820; 5819; 11399; 5990; 7044; 13078; 8438; 15077; 8882; 19095; 16323; 18053; 10934; 5596; 11736; 12078; 7489; 7487; 7488; 5287; 5512; 19069; 5531; 5288; 5289; 5599; 5598; 5597; 5687; 5686; 11349; 11401; 6270; 6267; 6269; 6268; 6640; 7965; 5513; 5600; 5689; 5688; 11511; 6271; 10935; 11327; 19108; 5691; 5690; 5821; 5822; 11512; 5991; 19109; 5992; 6272; 6273; 6274; 6641; 12079; 19111; 7045; 11308; 5601; 11402; 11513; 11514; 11737];
  [19116; 11738; 12081; 12080; 12083; 12082; 6642; 13079; 7047; 12544; 7046; 19118; 13695; 7966; 19303; 13696; 19306; 19119; 15078; 8883; 19120; 9269; 17725; 10936; 11328; 5692; 19125; 7490; 19126; 5514; 5532; 5603; 5602; 5604; 6276; 6275; 6277; 19130; 6643; 7048; 19133; 16324; 10220; 5533; 5694; 5709; 5704; 5699; 5698; 5705; 5703; 5696; 5710; 5697; 5693; 5708; 5707; 5706; 5695; 5702; 19136; 5701; 5711; 5700; 19179; 5828; 5834; 5830; 5836; 11403; 5833; 5823; 5826; 5829; 5825; 5832; 5835; 5824; 5827; 5831; 5837; 19138; 11523; 11520; 6005; 11521; 5993; 5995; 6019; 6014; 19513; 11528; 11522; 5997; 5999; 11527; 6006; 11517; 6018; 6020];
  [5994; 6011; 19158; 11515; 6017; 6002; 6012; 6013; 11516; 6010; 6008; 6009; 6015; 11524; 5996; 6016; 11526; 6004; 6001; 11519; 6000; 11529; 6003; 6007; 5998; 11525; 11518; 11755; 11754; 6295; 11757; 11759; 11748; 11751; 11758; 6296; 11745; 11749; 19143; 11753; 12098; 6291; 12102; 6278; 11750; 6279; 6292; 6285; 6281; 11746; 6284; 6289; 6298; 11747; 11740; 6283; 11741; 11743; 6286; 6288; 11739; 11744; 6297; 6293; 11752; 6299; 19147; 6290; 11742; 6287; 6282; 6280; 11756; 6294; 12097; 12085; 12100; 19148; 12087; 6650; 6664; 6646; 6663; 6655; 6660; 6644; 12086; 12092; 6659; 12104; 6661; 6651; 12094; 12091; 6649; 12084; 6662; 12099; 6654; 12101];
  [6665; 6645; 6656; 6653; 12089; 6657; 12095; 12096; 6652; 6658; 6648; 6647; 12088; 12093; 12103; 12564; 7061; 12546; 12551; 7054; 7065; 12549; 7049; 7059; 7064; 12556; 7060; 7063; 12559; 7055; 12550; 12562; 12563; 7057; 12561; 7053; 7068; 12553; 7051; 12566; 12554; 12558; 7056; 7067; 12555; 7062; 12560; 12567; 13094; 12565; 7069; 7050; 12557; 12548; 7058; 12547; 12552; 12545; 7066; 13086; 19140; 7509; 13100; 7507; 7504; 13091; 7500; 13095; 7511; 13085; 13090; 13089; 7052; 7506; 13098; 13101; 13082; 7984; 13102; 7512; 7498; 7495; 13093; 7492; 19156; 13099; 19090; 7499; 13103; 13083; 13097; 7502; 13084; 13087; 13092; 19219; 7503; 7501; 7513; 7508];
  [19146; 7496; 7648; 7497; 13088; 7510; 7505; 13096; 7494; 7493; 13080; 13081; 13701; 7967; 7970; 13712; 7990; 13715; 7968; 13708; 7974; 7980; 8255; 19160; 7978; 13705; 7991; 7971; 7979; 13713; 14404; 13718; 13706; 13697; 13710; 13704; 7977; 13716; 7973; 7993; 7986; 7975; 7972; 7983; 13717; 13703; 13709; 13711; 13699; 13714; 7969; 13698; 19161; 7976; 7992; 7988; 13700; 7982; 7989; 7985; 7981; 13707; 7987; 14402; 14398; 14413; 14391; 14400; 8452; 8453; 8445; 14409; 8455; 14396; 14395; 14393; 14411; 8443; 14405; 14394; 8446; 14403; 8441; 14399; 14406; 14408; 14412; 8450; 14392; 8444; 14397; 8439; 8451; 14407; 8447; 8448; 8454; 8442; 5212; 8440];
  [14401; 8449; 14410; 8899; 8894; 15093; 15089; 15083; 8888; 8884; 15092; 8885; 15086; 15088; 15091; 19162; 8890; 8897; 8891; 15081; 8892; 8893; 15084; 8898; 15082; 15087; 8889; 15080; 8895; 8887; 8886; 15085; 15090; 8896; 15079; 9276; 15707; 15704; 9270; 9282; 9283; 9273; 15702; 9275; 15694; 9281; 19169; 15706; 9272; 15708; 9271; 15703; 15705; 9274; 15701; 15695; 15692; 13702; 15698; 15691; 15697; 15696; 15693; 19174; 9278; 19175; 9277; 9279; 15699; 9657; 15700; 16333; 16326; 9669; 16330; 9661; 9665; 16329; 9664; 9660; 9663; 9658; 9668; 16331; 16327; 9667; 16325; 9666; 16332; 16328; 9280; 9670; 16334; 9662; 9659; 16899; 16901; 9950; 16902; 16900];
  [16898; 16897; 9952; 16896; 9953; 16894; 16895; 9949; 9954; 9951; 16893; 10221; 17360; 17358; 17363; 17361; 17359; 17362; 10394; 17728; 17729; 10541; 17730; 17726; 17731; 17727; 10222; 18054; 18056; 10544; 18055; 10543; 10542; 10545; 18311; 18312; 10639; 10638; 10640; 18310; 18487; 18486; 10721; 10723; 10722; 18488; 10778; 18751; 10819; 18750; 18823; 11313; 5713; 5712; 5840; 5839; 11405; 5838; 11404; 6023; 11532; 11531; 6021; 6024; 19182; 11530; 19181; 6022; 19177; 11760; 11761; 6300; 6666; 19180; 12568; 12569; 7070; 7071; 13105; 7514; 7516; 13104; 7515; 13719; 7994; 8456; 8457; 14414; 8901; 8900; 15709; 16336; 16335; 18883; 5534; 11329; 11350; 11351; 5843; 5847];
  [11407; 5845; 5844; 11406; 5846; 5842; 5841; 11408; 6034; 6031; 6027; 11533; 19190; 19208; 11534; 19186; 6029; 11536; 6025; 11537; 11535; 6028; 6030; 6033; 6032; 6026; 11538; 6305; 11774; 6307; 6306; 11775; 6304; 6303; 11765; 11764; 11762; 11767; 11766; 11763; 11772; 11773; 11770; 11768; 6302; 11771; 6308; 11776; 11769; 6667; 6301; 6668; 12109; 12115; 19350; 6674; 12113; 12119; 12110; 12114; 12116; 12118; 12112; 12111; 12106; 12107; 6669; 6671; 6670; 12108; 12117; 6673; 12105; 12579; 12578; 12583; 12574; 12577; 12576; 12580; 12584; 7072; 7075; 12575; 12581; 7074; 12570; 6672; 13119; 12582; 12573; 7073; 12572; 13110; 7517; 7521; 13126; 13108; 13122; 7522];
  [13124; 19193; 13130; 13134; 13125; 13113; 13121; 13135; 13133; 13123; 13118; 13111; 13727; 13109; 7526; 13116; 7527; 7523; 13106; 13128; 13114; 19129; 13112; 13131; 7524; 19195; 13137; 7518; 7520; 13120; 13115; 7076; 7519; 13117; 13132; 13136; 13127; 13129; 13107; 13722; 13731; 13730; 8002; 13723; 8003; 8001; 13725; 7998; 13729; 19198; 13724; 13726; 13720; 7996; 13739; 13738; 13735; 7995; 7999; 8000; 12571; 13732; 7997; 7525; 13734; 13721; 13737; 13736; 13740; 14428; 13733; 13728; 14420; 8467; 8470; 8465; 14419; 14423; 14418; 8459; 8469; 14415; 8463; 14422; 8461; 8460; 14425; 8462; 14427; 19200; 14424; 8458; 8468; 14429; 14417; 14426; 14416; 8464; 8466; 14421];
  [14430; 15101; 8902; 15107; 8907; 15103; 15110; 15095; 8909; 8903; 15100; 9284; 15099; 15108; 8904; 8908; 15098; 15104; 15109; 15094; 8906; 15102; 15106; 15112; 15096; 15105; 8905; 15111; 15097; 9288; 15711; 9286; 9285; 15713; 15718; 15714; 15717; 9291; 9644; 9290; 19201; 15710; 15716; 9289; 15715; 15712; 9287; 16341; 18959; 16343; 16338; 9672; 16340; 9671; 16342; 9674; 16344; 9673; 16337; 16339; 9958; 16905; 9957; 16906; 9956; 16904; 9955; 16903; 10224; 10223; 17732; 17734; 19204; 17733; 10395; 10396; 19203; 10397; 18057; 10546; 18639; 18638; 10820; 5535; 5605; 6035; 12120; 8004; 8005; 19206; 14431; 8910; 15113; 15719; 11330; 11539; 10937; 11777; 12121; 12585];
  [7077; 19627; 17735; 10641; 5536; 5714; 11352; 5848; 5849; 6309; 19213; 7528; 8912; 8913; 8911; 5537; 5606; 5608; 5607; 11331; 5609; 5715; 11353; 5716; 5850; 5851; 11409; 6036; 11540; 6313; 11778; 6311; 6312; 6310; 12586; 6678; 6677; 6679; 6676; 12122; 6314; 6675; 7078; 7079; 7080; 13138; 8006; 13741; 7529; 8471; 8915; 8914; 15114; 9292; 9675; 17364; 18489; 18640; 5538; 5717; 5718; 11415; 5853; 5856; 11413; 11411; 5855; 11414; 11416; 11410; 5858; 5857; 5854; 5852; 11412; 6047; 6044; 11545; 11548; 11547; 6038; 6046; 6043; 11544; 11542; 6042; 6037; 6040; 11543; 11550; 11546; 6041; 6045; 6048; 11541; 11549; 6039; 6319; 6327; 11790];
  [11783; 6328; 11794; 11779; 11786; 6318; 11780; 6316; 11787; 11791; 6315; 11792; 11785; 11788; 6330; 6321; 11795; 11793; 19222; 6326; 6324; 11784; 6323; 11782; 11781; 6322; 6320; 6329; 6325; 6317; 11789; 6681; 19227; 6688; 12136; 6680; 12128; 12124; 12140; 12123; 6683; 12133; 6686; 6689; 6684; 12137; 6687; 7087; 12143; 12125; 12127; 12134; 12138; 12142; 12139; 12132; 12135; 19234; 12129; 6691; 12131; 12130; 12141; 6682; 12126; 6690; 6685; 7093; 12594; 7092; 12592; 7081; 7086; 12591; 12588; 12593; 7082; 12587; 7085; 7083; 12595; 7084; 7088; 7089; 19218; 7091; 7090; 12589; 12590; 12596; 13145; 7530; 13755; 13144; 13163; 7536; 13161; 7535; 7531; 13170];
  [13154; 13157; 7539; 13167; 13159; 7532; 7540; 13164; 13162; 13147; 13168; 13156; 13151; 13141; 13169; 13153; 13140; 7538; 13158; 13171; 13155; 13143; 13148; 13139; 7537; 19237; 13152; 13149; 7533; 13142; 13166; 7534; 13150; 13146; 13165; 8007; 13748; 13745; 13762; 13750; 13763; 8009; 13759; 13756; 19609; 13757; 13760; 13764; 13160; 13766; 14451; 19563; 8010; 13767; 13743; 13753; 19242; 13758; 8008; 8011; 13765; 13768; 13747; 13744; 19362; 13746; 13751; 13749; 8012; 13761; 19236; 13752; 13754; 13742; 14439; 14437; 8480; 8478; 14447; 14438; 14448; 14444; 14436; 14450; 14435; 14442; 8477; 8476; 8475; 14440; 14445; 8472; 8479; 14433; 14443; 14432; 14441; 8473; 14446; 14434];
  [8474; 14449; 19244; 15118; 8920; 8919; 8921; 15130; 15120; 15126; 15115; 15129; 15128; 15132; 15125; 8916; 15124; 8922; 15117; 8917; 15131; 8918; 15119; 15122; 15127; 15121; 15116; 15123; 15721; 9296; 15724; 15723; 15726; 15728; 18962; 9294; 15722; 15720; 15729; 15727; 15725; 15731; 15730; 9298; 9293; 9295; 9297; 15732; 16351; 16350; 16349; 16352; 16345; 16346; 16354; 16347; 9676; 16356; 16355; 16348; 16910; 9961; 16908; 16913; 16912; 16353; 9960; 16911; 16907; 16915; 16914; 9959; 16909; 9677; 10225; 17365; 17736; 17737; 17738; 10547; 10548; 18058; 19691; 18314; 18313; 18490; 18491; 18641; 18752; 5539; 5540; 5541; 5610; 5719; 11417; 5859; 5860; 6051; 6052; 6050];
  [6049; 6331; 11796; 6333; 6332; 11797; 6692; 7094; 12597; 13173; 7541; 8014; 13172; 8013; 8923; 19253; 15133; 9678; 9962; 16916; 19255; 10549; 10724; 10938; 11354; 19054; 5720; 11355; 5863; 5861; 5862; 5864; 6054; 6053; 11551; 6055; 11552; 11798; 11799; 6334; 6336; 6338; 6335; 6339; 6337; 19266; 6696; 6693; 6695; 6697; 6694; 12598; 12144; 19372; 12600; 12599; 7100; 7096; 7097; 7099; 7101; 7098; 7103; 7102; 7546; 13175; 13174; 7545; 7544; 7543; 7547; 7542; 13774; 13771; 8016; 13770; 13775; 8018; 13773; 8015; 8017; 13772; 19260; 14452; 19701; 14453; 14454; 8924; 8932; 15134; 8926; 8930; 15135; 8931; 8927; 8928; 8925; 8929; 9301; 13769];
  [9302; 9300; 9299; 16357; 9679; 16917; 16918; 19265; 10398; 10550; 5542; 5865; 19207; 6698; 12601; 7104; 19268; 7550; 7549; 7548; 8019; 8020; 13776; 8933; 9680; 5543; 11332; 5611; 11356; 19270; 19272; 11418; 5866; 6340; 14455; 5544; 5612; 11419; 11553; 11554; 6056; 13777; 8021; 14456; 9963; 5545; 5565; 5613; 11357; 5721; 6060; 6059; 6057; 6058; 11800; 6342; 6343; 11801; 6341; 19275; 6702; 12145; 6701; 6699; 6700; 7107; 7105; 12603; 7106; 12602; 7095; 13176; 7552; 7553; 7551; 8934; 15136; 9303; 9304; 15733; 9964; 17366; 17367; 10642; 18753; 11315; 5614; 5546; 11359; 11358; 5867; 11421; 11422; 11420; 11423; 19277; 11562; 11557; 11559; 11561];
  [11558; 6064; 11555; 11556; 6061; 6062; 11560; 11563; 6063; 11564; 19612; 11815; 11809; 11804; 6345; 11812; 11810; 11803; 11816; 11819; 11814; 11807; 6347; 11813; 6348; 11808; 11811; 11802; 11806; 11818; 6349; 6350; 11805; 11817; 6344; 6346; 19287; 12162; 12155; 12161; 12154; 12156; 12150; 12148; 12163; 12160; 12146; 6704; 12158; 12159; 12157; 12149; 12147; 6703; 12153; 12151; 12152; 12164; 7112; 19278; 7111; 12604; 7108; 12606; 19279; 7113; 12607; 7116; 7114; 12608; 12165; 12610; 7110; 7109; 12605; 12609; 7115; 7555; 7554; 13178; 13182; 13184; 7556; 13187; 19283; 7560; 13189; 7562; 7558; 7566; 19284; 7563; 13180; 7557; 13179; 13177; 13191; 13181; 7559; 13190];
  [7564; 13186; 13185; 7565; 13183; 7561; 13192; 13188; 13792; 13799; 13788; 8024; 13784; 13800; 13778; 13797; 13795; 13789; 13798; 13791; 13783; 13801; 13781; 13794; 13779; 13802; 19285; 8025; 13796; 14459; 13782; 8022; 13786; 8023; 13785; 13790; 13787; 13793; 14463; 14466; 14458; 14460; 14465; 14464; 8481; 13780; 14462; 8482; 14457; 14461; 15143; 15150; 15141; 15148; 15139; 15147; 15151; 15138; 15142; 15137; 8935; 15140; 8936; 15146; 15145; 15144; 19280; 15149; 15737; 15739; 9306; 15740; 15735; 15734; 15744; 15742; 9305; 15745; 15736; 15741; 15743; 15738; 16361; 16366; 16360; 16365; 16358; 16368; 16364; 16369; 16363; 16359; 16367; 16370; 16362; 19335; 16919; 9968; 9966; 9965];
  [9967; 17368; 17634; 17739; 18059; 18060; 10551; 18315; 10643; 18316; 18493; 10726; 10725; 18492; 10779; 19288; 18642; 10939; 5547; 5868; 11424; 11565; 6206; 7567; 5548; 5724; 5723; 5722; 6065; 7117; 14467; 5549; 5550; 5551; 5615; 6705; 12166; 8026; 5552; 11333; 5725; 5726; 11360; 5869; 19308; 11566; 6066; 11567; 6356; 11821; 6354; 6353; 11820; 6351; 11822; 6352; 6355; 6706; 6708; 12170; 12167; 12168; 12169; 12171; 6707; 12612; 12611; 7119; 7118; 19297; 7570; 13194; 7569; 7571; 7568; 8028; 13193; 8029; 13804; 8030; 13803; 8027; 14470; 14472; 8483; 14471; 14469; 14468; 15154; 8941; 8939; 8940; 15152; 15153; 8937; 15749; 15747; 9308; 15748; 9309];
  [9307; 8938; 16373; 16371; 16372; 15746; 16921; 9969; 16920; 17369; 17370; 16374; 17740; 5553; 5727; 5871; 11425; 5870; 6357; 8484; 19300; 5616; 5728; 6709; 8031; 10941; 11361; 11362; 19251; 11426; 6068; 11571; 11569; 6069; 11568; 11570; 11572; 6067; 6361; 6362; 6359; 6358; 12175; 6360; 6710; 12174; 12176; 12173; 12177; 6711; 7122; 12613; 12615; 7120; 12616; 7121; 12614; 12172; 13195; 13198; 13199; 13196; 7575; 7574; 7572; 7573; 13197; 7576; 8033; 8034; 8035; 14473; 14475; 14477; 8486; 8485; 8032; 14476; 14474; 15158; 19305; 15156; 15162; 8942; 15163; 15160; 8943; 15157; 15155; 15161; 9311; 15751; 15159; 9313; 15752; 9312; 9315; 15753; 9310; 9314];
  [16379; 16377; 16376; 16378; 16375; 10400; 18061; 18062; 18317; 18494; 10854; 10942; 6363; 6070; 19311; 6712; 19312; 19314; 5554; 5617; 5729; 11427; 6071; 11573; 12178; 6713; 8944; 5555; 19317; 5872; 8487; 5556; 5618; 5619; 5731; 5730; 11428; 5873; 11574; 6072; 11824; 11825; 11826; 6364; 6365; 11823; 6366; 6714; 12179; 12618; 7123; 12617; 7577; 13200; 7578; 13201; 19323; 8036; 14478; 15165; 15164; 8945; 9316; 15754; 9681; 16380; 9970; 10727; 18644; 10943; 11827; 12180; 7579; 13805; 8488; 10226; 10944; 6074; 19328; 6073; 6715; 12619; 7581; 7853; 7582; 7580; 8037; 15166; 8946; 9317; 19331; 11316; 11429; 11576; 6075; 11575; 6076; 19074; 6370; 11830];
  [11829; 6369; 6367; 6368; 11828; 6717; 12181; 6720; 6716; 6722; 6718; 6719; 6721; 7126; 7125; 7124; 13203; 7583; 7586; 7584; 13202; 7589; 7585; 13204; 7588; 7587; 19030; 13807; 13806; 19334; 8040; 8038; 8039; 13808; 8489; 14480; 8490; 14479; 15755; 9319; 15167; 9318; 8947; 16923; 16381; 9971; 16922; 17741; 18063; 18064; 5620; 5732; 11363; 6078; 6080; 11432; 11579; 11578; 11577; 11431; 11430; 5875; 6079; 6077; 5874; 6371; 11831; 19426; 6372; 11584; 11586; 11585; 11832; 11581; 6084; 6082; 11580; 11582; 11588; 6081; 11583; 11592; 6374; 11589; 6083; 11587; 11590; 6373; 6375; 11591; 11852; 11839; 11837; 11851; 11846; 6727; 6376; 11847; 11850; 6723];
  [11849; 6377; 6382; 6380; 11840; 11835; 11842; 6387; 11853; 6724; 11843; 6725; 6383; 11845; 19382; 12196; 6726; 11834; 6384; 6728; 6385; 6381; 6386; 11844; 11833; 11848; 6378; 19344; 11836; 11841; 11838; 6379; 12182; 12183; 12193; 12623; 12194; 6734; 12197; 12187; 6733; 12189; 12190; 19102; 12192; 6729; 7130; 18960; 12188; 12184; 7131; 12198; 7127; 12621; 12191; 12620; 12186; 12195; 6732; 7128; 6738; 7129; 12199; 12622; 6731; 7133; 6737; 6736; 6735; 7132; 12200; 7134; 6730; 12185; 7590; 12626; 12628; 12630; 7135; 7141; 13207; 12634; 12625; 7592; 13205; 7140; 7138; 12636; 13206; 12627; 7139; 12631; 7142; 12633; 7137; 12632; 12635; 12629; 19354; 7136];
  [7593; 12624; 7591; 19355; 7594; 13209; 13218; 8043; 19356; 7596; 7601; 8044; 13220; 7608; 13810; 13210; 7600; 7603; 7598; 13208; 13222; 13225; 13825; 13223; 13814; 7599; 7606; 7610; 13217; 13809; 13221; 7595; 13811; 13224; 13813; 13213; 8041; 13211; 13212; 7605; 7604; 13215; 7609; 13219; 7602; 13216; 19504; 7607; 8045; 8042; 13812; 13214; 7597; 8050; 8054; 13816; 8495; 8052; 13820; 8056; 14481; 13822; 8497; 8048; 8051; 13823; 13824; 13830; 8058; 8498; 13826; 13831; 13819; 8508; 8499; 8057; 13817; 13832; 8507; 8055; 8492; 13829; 8059; 13821; 13815; 8049; 13818; 13827; 8491; 8496; 8046; 13828; 8494; 8047; 8506; 15169; 14492; 14484; 15168; 14488];
  [14490; 14487; 8505; 14486; 8509; 15184; 8504; 8949; 14493; 15170; 19365; 8502; 14485; 14489; 8948; 8493; 14482; 14483; 8950; 8501; 8503; 8500; 14491; 15174; 15175; 15180; 9324; 15187; 8956; 8955; 15182; 19383; 9323; 15171; 8954; 19261; 15186; 8952; 8953; 19363; 15183; 15772; 9321; 8053; 15185; 9328; 15177; 9322; 9327; 15172; 15176; 15173; 15179; 8957; 9320; 8951; 15758; 15181; 9326; 9329; 15178; 19368; 9325; 15757; 19371; 15762; 9685; 15756; 16393; 15771; 9333; 9331; 9683; 15768; 15764; 9337; 16384; 9335; 15763; 16382; 15767; 15770; 15761; 9336; 9330; 16383; 9684; 15769; 9332; 9334; 15766; 9338; 15765; 15760; 15759; 9682; 15773; 16386; 16925; 9687];
  [16392; 16390; 16926; 9688; 16391; 16388; 9973; 16924; 16385; 16387; 9974; 9690; 9972; 9689; 9976; 16389; 9686; 19378; 19375; 17379; 17371; 16932; 17372; 16928; 10227; 16930; 16929; 9975; 16927; 16931; 17380; 17376; 17378; 17373; 17374; 17377; 17375; 10401; 10404; 10403; 10402; 10552; 18065; 10553; 17742; 10644; 18318; 10645; 10728; 10780; 18645; 18646; 18647; 18928; 5621; 11364; 5733; 5877; 5878; 5876; 5879; 6086; 6085; 11854; 6389; 6388; 12637; 7611; 7612; 8060; 14494; 8510; 8511; 14496; 14498; 14497; 15189; 15188; 8958; 15190; 15774; 9339; 9691; 9977; 10228; 9978; 5622; 11593; 11855; 6391; 6390; 6392; 6739; 12201; 12202; 12638; 7143; 7613; 8061; 13833];
  [5623; 5557; 5624; 11365; 5737; 5736; 5734; 5735; 5882; 11439; 11441; 5881; 11433; 11434; 11440; 11436; 11438; 5880; 11435; 11442; 11437; 6093; 6102; 6100; 11603; 11600; 11608; 6098; 11609; 6091; 11606; 6097; 11602; 11601; 6095; 11607; 6096; 6393; 6090; 11604; 11594; 6087; 6106; 11599; 11605; 6092; 6094; 11595; 11596; 11597; 6105; 6099; 6104; 11598; 6103; 6089; 6088; 6101; 6407; 11867; 11860; 6402; 6421; 11856; 11863; 11865; 11868; 6416; 11864; 11857; 6414; 11861; 11869; 6399; 11866; 6409; 6408; 11859; 6397; 6398; 6396; 19387; 6420; 6412; 6406; 6394; 11862; 6405; 6395; 6413; 6422; 12203; 6410; 11858; 6400; 6403; 6404; 19389; 6418; 6419];
  [6417; 6411; 6415; 6401; 6740; 19014; 12209; 6752; 6744; 6746; 6751; 12221; 6749; 12639; 7144; 6754; 12206; 12214; 6750; 12213; 12210; 12218; 12220; 6743; 6747; 6753; 7146; 12215; 6745; 6756; 12208; 6748; 7145; 6742; 12205; 12212; 12204; 12207; 12211; 12640; 6755; 12216; 12217; 12219; 6741; 7160; 12652; 7158; 7159; 12642; 12658; 7149; 13226; 12660; 12654; 12645; 12663; 12648; 7155; 13249; 12651; 7157; 7148; 12665; 12653; 7151; 12646; 12643; 12644; 7152; 12659; 12666; 7154; 12650; 12649; 7162; 7161; 7147; 7153; 7156; 12662; 12656; 7150; 12641; 12664; 12655; 12657; 12661; 13227; 7621; 7641; 7640; 7629; 19391; 13245; 13241; 13238; 13256; 7624; 7616];
  [13243; 8077; 7620; 13251; 7642; 7639; 13247; 13230; 7638; 13253; 13229; 7627; 7631; 13252; 13239; 7632; 7626; 13228; 19385; 8063; 13255; 13237; 7637; 13240; 13254; 7636; 13834; 7617; 13235; 7622; 7633; 7628; 13244; 13234; 13232; 13250; 7614; 7634; 7618; 8062; 13248; 7619; 7615; 7630; 7625; 7623; 13236; 7635; 13233; 13246; 13242; 13836; 13835; 13231; 13852; 8065; 13858; 13841; 13855; 14499; 8068; 13859; 13862; 8067; 13844; 13861; 13860; 8069; 13837; 8064; 8072; 8070; 13857; 13847; 8074; 13864; 13856; 13865; 8082; 8080; 13854; 13853; 13851; 13845; 8073; 8071; 12647; 13838; 14529; 13839; 8066; 8079; 14501; 8075; 8076; 13840; 13863; 14500; 13848; 13843];
  [8078; 13849; 13846; 19395; 8083; 8526; 14504; 14523; 14528; 14516; 8522; 14533; 8519; 14502; 14503; 8512; 8521; 14510; 8524; 8525; 14511; 14524; 14530; 8520; 8514; 14509; 14505; 14532; 14514; 14515; 14506; 14526; 14517; 14527; 14519; 8515; 15191; 8518; 8516; 14531; 14522; 14518; 14507; 8968; 14521; 8523; 14513; 19394; 14512; 19408; 8517; 8513; 15212; 14525; 14520; 14508; 15207; 15192; 15203; 15210; 8966; 8081; 15208; 8961; 8960; 15215; 15193; 15206; 15194; 15205; 8964; 15209; 13850; 15216; 15201; 8967; 15788; 9340; 15214; 15213; 8969; 15775; 9341; 15776; 15197; 15198; 15195; 15200; 15196; 15217; 8963; 9342; 8965; 8970; 15199; 15211; 15204; 15779; 8959; 9345];
  [16400; 15784; 15783; 15785; 15782; 9346; 9352; 9349; 9350; 15777; 15780; 15790; 9358; 9356; 15781; 13842; 9343; 15787; 15778; 9359; 15786; 8962; 9348; 15202; 9351; 9355; 9357; 9354; 9353; 19739; 9347; 15789; 9344; 9360; 9695; 9696; 16399; 9705; 9702; 9693; 9700; 16401; 9698; 9692; 9699; 16398; 9980; 9694; 9701; 9979; 16397; 16396; 9703; 9704; 16395; 16394; 9981; 16404; 9697; 16402; 9982; 19404; 9987; 16935; 16937; 19405; 9984; 16938; 16934; 16936; 9985; 9988; 16933; 9983; 9986; 10230; 16403; 10229; 10235; 17384; 10233; 10234; 17387; 17383; 10231; 17381; 10405; 17385; 17386; 17382; 10232; 17743; 17746; 17747; 17745; 17748; 10406; 17744; 18069; 10555];
  [18068; 18067; 18066; 10554; 10556; 18319; 10647; 10646; 19384; 18496; 18495; 18498; 10781; 10729; 18649; 18497; 18648; 10783; 10782; 10821; 18754; 18824; 5625; 13866; 16405; 10945; 5883; 11610; 6109; 6107; 6108; 11870; 6423; 6757; 12222; 12223; 6758; 12668; 7163; 7164; 12667; 19410; 7649; 7645; 13257; 7652; 7651; 7644; 7647; 7650; 7646; 13870; 7643; 8084; 19416; 8086; 8087; 13869; 13872; 8085; 13867; 13871; 13868; 8527; 19415; 14534; 8971; 15218; 9706; 9361; 15791; 9362; 9363; 15793; 15792; 15794; 16407; 16406; 16940; 16939; 9989; 9990; 17749; 19414; 5626; 19254; 13873; 8089; 8088; 14535; 17388; 10648; 18650; 5627; 7165; 7654; 7653; 13874; 13875; 8528];
  [15219; 8972; 16408; 5628; 5738; 6424; 11871; 12224; 6759; 7655; 13876; 8090; 8529; 15795; 15796; 19418; 16941; 10236; 18825; 5629; 11872; 6425; 6760; 12225; 7166; 12672; 12670; 12671; 7167; 12669; 7657; 7658; 13258; 7659; 7656; 13877; 19421; 13878; 14536; 8974; 8973; 16942; 17389; 17751; 17750; 18070; 10946; 11334; 6761; 19425; 5630; 5739; 5885; 5884; 5886; 5887; 11444; 11443; 11611; 6110; 11614; 11613; 11612; 11615; 6426; 11878; 11874; 11883; 6433; 6431; 11879; 11875; 11882; 6430; 6437; 11877; 11873; 6436; 11880; 6429; 11881; 6432; 6434; 11885; 11884; 11876; 6428; 6427; 6435; 19428; 12230; 12236; 6767; 6764; 12227; 12232; 19660; 6770; 6762; 12231];
  [6765; 6768; 12234; 6763; 12239; 6766; 6769; 12228; 12233; 12237; 12229; 12226; 12238; 12235; 7175; 7168; 7171; 19431; 7174; 12675; 7169; 12673; 19434; 7173; 7170; 12676; 7172; 19141; 13262; 7661; 13261; 13263; 7660; 7665; 12674; 13260; 13264; 7662; 13259; 7664; 19436; 7663; 13885; 13880; 8091; 8095; 8092; 13883; 13886; 19438; 8093; 8094; 8099; 14545; 13884; 8097; 13881; 13879; 8098; 13882; 8535; 19345; 14537; 8532; 8533; 8531; 14542; 14541; 14538; 8537; 14540; 8096; 14544; 14539; 8534; 8530; 8536; 14543; 8977; 15222; 15221; 15220; 8975; 19172; 8976; 15799; 15802; 9365; 19173; 9364; 15803; 15798; 9367; 15800; 19167; 9366; 15797; 15801; 9712; 9709];
  [16417; 16416; 16415; 16410; 16411; 9710; 9707; 9711; 16409; 9708; 16412; 16413; 16418; 19170; 16414; 16943; 9992; 17392; 9991; 17390; 17391; 10237; 10408; 17752; 10407; 18072; 18073; 10557; 18071; 10649; 18651; 10784; 18755; 18756; 5631; 5888; 5889; 6111; 11886; 6771; 7176; 7666; 7491; 8100; 8101; 7956; 13887; 19448; 8538; 15224; 15223; 5632; 5890; 11887; 6439; 6438; 12240; 12241; 12677; 12678; 7177; 7178; 7179; 13265; 7668; 8103; 8102; 14546; 14816; 15225; 16419; 10238; 10558; 5633; 5742; 5743; 5741; 5744; 5740; 5893; 11452; 5892; 5894; 11447; 11446; 11449; 11448; 11451; 5891; 11445; 11450; 19013; 11616; 6121; 11617; 11621; 6120; 11625; 11620; 11623];
  [6113; 6114; 6115; 6116; 6123; 11619; 6118; 6124; 11618; 11624; 6117; 11622; 6119; 6112; 6122; 19456; 19455; 6460; 11889; 6440; 6450; 6451; 6443; 6461; 6445; 11897; 6456; 11892; 6446; 11907; 11908; 11900; 11893; 6459; 11905; 6454; 6452; 11906; 11904; 11896; 11888; 11895; 6447; 6453; 6441; 11899; 11898; 11890; 6455; 11902; 11891; 6458; 11909; 6442; 6449; 11894; 11903; 6457; 6444; 6448; 11901; 19481; 12273; 6779; 6792; 19498; 12268; 12258; 6785; 12256; 6778; 12251; 6788; 12264; 12245; 12247; 12250; 12242; 12263; 12279; 6783; 12252; 12270; 12244; 12277; 12278; 12281; 12272; 12257; 12265; 6789; 6776; 6784; 6796; 6773; 6775; 19459; 12249; 6793; 6786];
  [12275; 12246; 6795; 6790; 12255; 6794; 12262; 12254; 6787; 12274; 12266; 6781; 12280; 12253; 6777; 12271; 12261; 6782; 12267; 6774; 12243; 6791; 7194; 6780; 12260; 12259; 12248; 12276; 12269; 6772; 19464; 19640; 12698; 7201; 12699; 12687; 7190; 7202; 12680; 19100; 12689; 12697; 12679; 12706; 7180; 19461; 12705; 12700; 12701; 7188; 7199; 12691; 12692; 12702; 12693; 12688; 12682; 12683; 12696; 12690; 19539; 7181; 7185; 12704; 12684; 7197; 7193; 19315; 7196; 7203; 7186; 7198; 12695; 7200; 7183; 7182; 12681; 12685; 7191; 12703; 12694; 12686; 7195; 7192; 7184; 7187; 19467; 13286; 13270; 13271; 13275; 13290; 13287; 13280; 13279; 7675; 13283; 13298; 13266; 13299];
  [13285; 13303; 13291; 7674; 13289; 7669; 7690; 7680; 7684; 7683; 13267; 13296; 13302; 13294; 13301; 13282; 13268; 13300; 13284; 7672; 7685; 13293; 7678; 13292; 13269; 7686; 7688; 13295; 7689; 7671; 13276; 13297; 19214; 7677; 7687; 13278; 13288; 13273; 13277; 7682; 13272; 7670; 7679; 7676; 13281; 7189; 13910; 7673; 19635; 19473; 7681; 13913; 13935; 13924; 8123; 19751; 8118; 13907; 8119; 13923; 13916; 13929; 8115; 13889; 13931; 8105; 13897; 8108; 8107; 8124; 13891; 13925; 13926; 8110; 8106; 13905; 8117; 13900; 13927; 8113; 13919; 13932; 13894; 13899; 13893; 8112; 13912; 14568; 13895; 8116; 13904; 13928; 8111; 13901; 13898; 13915; 8114; 8104; 8126; 13918];
  [13917; 19476; 19475; 19769; 19667; 13890; 8109; 13930; 13906; 13908; 13921; 13920; 13888; 8120; 8122; 13896; 13903; 13911; 8121; 13902; 13914; 13933; 13922; 13934; 13892; 14588; 8546; 14586; 14565; 14570; 14563; 19485; 14582; 14549; 14556; 14580; 14590; 14566; 19072; 14553; 14572; 14577; 14557; 14574; 14554; 14561; 14562; 8548; 14581; 14579; 14550; 14584; 14585; 14587; 8552; 8544; 13274; 14558; 14576; 14559; 8541; 8557; 14583; 8555; 8551; 14548; 8543; 19482; 14551; 8556; 14567; 14547; 8549; 14571; 14555; 8550; 14564; 8540; 8125; 14573; 13909; 14552; 19472; 14578; 8545; 14575; 8542; 14569; 8553; 14560; 14589; 8547; 14701; 8554; 15239; 15237; 15259; 15235; 15253; 8539];
  [8980; 15231; 15258; 19486; 15236; 15250; 8985; 8978; 15256; 15229; 15255; 8996; 15246; 15262; 8994; 15238; 8979; 15240; 15254; 8988; 15233; 8992; 8982; 15242; 15232; 15226; 15252; 8989; 15261; 15227; 8986; 15248; 8987; 15234; 15245; 15241; 15243; 8981; 15260; 8995; 15244; 15263; 15228; 15249; 8984; 8993; 8991; 15230; 15251; 8990; 8983; 15247; 15257; 19469; 15815; 15811; 15807; 15827; 15824; 9370; 15831; 15814; 9381; 15821; 15810; 15820; 9378; 15840; 15837; 15823; 15808; 19491; 19452; 15828; 15830; 9374; 15818; 15813; 15804; 9371; 9379; 15833; 9380; 15805; 15839; 15826; 15832; 9377; 19470; 15829; 15836; 9382; 9376; 15822; 15809; 15841; 15806; 15834; 9373; 15816];
  [15817; 9372; 9369; 15812; 9375; 9368; 15835; 15838; 15819; 16432; 19684; 16424; 16420; 9725; 9714; 9719; 9715; 16434; 16445; 9713; 16426; 16435; 15825; 16436; 9720; 19494; 16451; 9724; 9727; 16422; 9723; 16449; 16450; 16440; 16439; 16431; 16441; 16448; 16447; 9718; 9716; 16433; 16430; 16427; 16446; 9726; 16444; 9722; 9721; 16438; 16421; 16423; 16425; 16443; 16437; 9717; 16428; 16442; 16429; 10000; 16961; 9993; 16946; 16957; 9995; 16964; 16953; 16948; 19298; 16965; 16944; 16955; 10002; 16960; 16966; 16954; 9994; 16956; 16945; 10001; 16963; 16950; 9997; 19496; 16952; 16949; 10003; 16951; 9996; 9999; 16959; 16947; 16962; 16958; 10240; 17403; 10245; 10246; 10239; 17402];
  [17399; 17400; 10243; 17394; 17398; 10242; 17395; 10244; 10241; 17393; 17397; 17401; 19499; 17758; 17755; 17764; 17763; 17761; 17756; 10412; 17757; 10411; 9998; 17760; 10410; 17765; 17759; 17754; 17396; 10409; 17753; 18077; 18076; 17762; 10559; 18080; 18081; 18075; 18079; 18074; 18323; 18078; 10652; 10650; 18321; 18324; 18320; 18322; 10651; 18500; 18501; 10730; 18499; 18654; 10785; 18652; 18653; 18757; 10855; 18828; 18826; 18827; 18829; 19502; 18929; 5634; 5895; 6462; 11910; 12282; 12707; 12709; 12708; 12710; 7691; 13305; 12711; 19505; 13304; 13306; 13307; 13936; 8128; 13937; 13939; 8129; 8127; 13938; 14596; 14594; 14593; 14592; 14591; 8558; 14595; 8997; 15264; 15266; 8998; 15265];
  [9384; 9383; 15842; 16453; 16452; 16454; 9728; 16967; 10004; 17404; 10247; 17766; 10731; 5635; 5745; 5896; 6125; 6463; 6464; 6797; 12712; 8559; 19506; 15968; 9729; 10248; 5636; 5897; 11912; 6465; 11911; 12283; 6798; 12284; 6799; 12714; 7205; 7204; 13312; 13310; 13311; 13309; 13308; 13940; 13943; 8131; 13941; 8130; 13942; 14597; 15267; 15268; 15269; 15845; 15844; 9385; 15843; 15846; 16455; 16456; 16457; 16968; 10005; 10249; 17767; 10653; 11335; 6800; 12285; 7206; 7692; 8132; 13944; 8561; 8560; 15270; 15271; 9386; 9387; 16459; 16458; 17405; 18655; 5637; 11336; 5746; 6126; 11626; 6801; 8562; 5638; 12286; 6802; 12287; 10006; 5639; 19517; 11913; 12288; 19515];
  [12719; 12718; 12716; 12715; 12720; 12717; 7693; 7694; 8133; 13945; 13946; 13947; 14602; 14603; 14601; 14599; 14600; 8563; 15272; 15849; 15848; 15847; 15850; 16461; 16460; 9730; 16462; 10007; 16969; 17406; 17768; 18502; 5640; 5748; 5747; 6466; 11337; 11366; 5898; 11453; 11627; 11628; 6467; 11914; 6803; 12289; 12290; 7207; 7211; 12721; 7210; 7208; 7209; 13313; 7695; 8136; 8134; 8135; 13948; 8999; 5641; 11367; 19518; 5749; 11370; 5752; 11369; 5751; 5750; 6127; 11368; 11454; 19127; 11458; 11460; 11461; 5908; 5909; 11457; 5904; 11455; 11459; 5905; 5900; 5901; 19522; 5907; 11456; 5899; 6128; 5902; 5903; 5906; 11645; 11643; 11630; 6140; 11637; 6135; 11631];
  [11639; 19188; 11636; 6138; 11635; 6145; 11644; 6147; 6149; 11629; 19524; 6136; 11646; 6143; 6146; 11937; 6130; 6153; 6144; 11632; 6133; 6148; 11640; 6131; 6132; 11935; 11633; 6139; 6150; 11647; 11634; 6137; 6142; 11915; 6151; 11641; 6141; 6152; 6129; 11638; 6134; 11642; 11936; 6479; 6495; 11922; 6486; 11943; 6471; 6474; 11934; 11920; 11924; 6482; 6484; 11927; 6491; 6477; 6475; 6476; 6490; 11939; 6485; 11926; 11928; 6483; 6488; 11929; 11942; 6804; 6494; 19098; 6472; 11941; 11945; 11925; 11947; 11932; 6481; 11921; 6480; 6498; 6487; 11919; 12299; 6493; 6497; 11933; 11938; 6499; 6492; 6478; 6468; 6473; 11923; 6469; 11946; 11917; 11916; 11930];
  [11918; 6496; 7212; 6489; 11931; 6470; 6819; 11944; 12306; 12309; 12312; 12301; 12315; 12318; 12320; 12298; 6805; 6810; 12726; 6826; 12313; 12321; 12305; 12297; 12753; 6813; 12310; 12302; 12304; 6818; 12307; 6812; 12294; 12316; 12319; 6809; 6821; 12291; 6823; 6807; 6827; 12317; 12293; 6824; 12747; 11940; 6811; 6806; 12300; 12292; 6825; 6817; 12311; 6822; 6820; 12303; 6814; 12295; 6815; 6816; 12296; 12314; 6808; 12308; 12729; 7220; 7225; 19142; 19544; 12738; 12744; 12740; 12727; 12730; 12723; 12724; 7232; 7217; 12739; 12748; 7227; 7213; 7222; 12731; 7224; 12732; 12742; 19231; 7226; 12757; 12725; 7219; 7218; 7230; 12722; 12755; 12743; 12756; 12750; 12736];
  [12751; 12745; 12754; 12752; 7231; 12737; 7216; 7215; 7223; 7229; 12749; 7228; 12734; 7696; 12758; 12733; 12728; 7221; 7233; 7214; 19543; 12741; 12746; 7730; 13315; 13319; 7711; 7709; 7700; 13317; 13316; 7720; 13322; 7714; 13340; 13352; 7697; 13337; 13330; 7732; 13314; 13342; 7729; 7717; 7728; 7707; 13326; 13344; 13336; 7708; 7702; 13350; 13343; 13345; 7710; 7718; 13347; 13324; 13341; 13329; 13349; 7723; 7699; 7721; 13334; 13332; 13333; 7712; 13328; 13327; 7701; 13321; 13351; 7703; 13331; 7733; 7727; 13320; 7724; 7722; 7731; 13338; 7726; 12735; 13339; 7725; 13346; 7698; 13335; 7716; 13323; 7715; 7713; 7705; 7704; 13949; 13348; 13325; 13970; 7706];
  [8165; 7719; 8147; 13964; 8161; 13952; 8144; 8140; 13982; 8146; 8150; 8145; 8154; 13986; 13977; 19776; 13959; 8159; 8153; 13971; 8137; 13983; 13976; 8141; 13965; 8156; 13994; 13995; 8138; 13981; 8158; 13969; 13955; 13956; 8162; 13960; 13967; 13961; 8160; 8168; 13957; 13950; 13951; 13953; 8143; 13966; 8157; 8166; 19562; 19462; 13968; 13992; 13984; 8139; 13990; 8151; 8149; 19216; 13996; 8148; 13974; 13962; 13972; 8171; 13978; 13975; 13958; 8167; 13988; 13985; 13993; 8142; 13973; 8170; 13980; 8152; 8155; 13979; 8169; 13963; 13318; 13989; 13987; 13991; 19545; 13954; 8164; 14634; 14633; 14607; 8569; 14632; 14610; 14611; 8579; 14641; 8574; 14631; 14604; 8580];
  [8570; 14619; 14609; 14612; 14636; 8564; 14643; 14635; 8573; 14624; 8584; 8583; 8577; 14642; 8565; 14622; 14613; 14626; 14638; 8585; 19508; 8567; 14621; 14614; 8576; 8575; 14617; 14627; 14637; 14608; 14618; 8568; 14628; 8581; 8572; 14615; 8571; 14606; 14620; 14640; 8163; 9027; 14623; 15273; 14625; 14639; 8578; 14616; 8566; 8582; 9405; 14605; 14630; 19091; 19033; 14629; 15301; 9024; 15290; 15295; 9013; 15275; 9026; 9004; 15274; 15307; 9028; 15278; 15294; 19569; 15280; 15310; 15306; 9002; 9012; 15876; 9025; 9010; 15276; 19546; 15305; 9014; 15302; 15315; 15282; 15291; 15313; 15303; 9009; 15289; 9003; 9001; 9019; 19411; 15287; 15284; 15285; 15309; 15314; 15312];
  [9007; 15316; 9011; 9018; 15277; 15852; 15286; 9005; 9023; 9020; 9008; 15296; 15281; 9021; 15298; 9015; 9017; 9000; 15300; 15292; 15279; 9016; 15308; 15311; 15288; 15299; 19641; 9006; 9388; 15297; 15851; 15304; 19574; 15283; 15861; 15871; 9391; 15870; 15882; 9393; 15868; 15872; 9404; 15863; 9396; 19575; 15875; 16470; 9408; 9407; 15877; 15860; 15887; 9402; 9392; 15880; 15884; 15889; 15878; 15866; 9395; 9398; 9406; 9401; 15869; 15293; 19577; 15865; 15888; 9397; 9400; 15890; 9389; 15879; 15853; 15885; 10016; 15867; 9390; 15862; 9394; 15854; 9022; 15858; 19399; 15883; 15859; 15857; 9399; 15881; 15856; 15874; 15873; 15886; 15864; 9403; 19567; 16473; 19580; 9743];
  [9733; 16485; 16465; 9735; 16477; 9742; 9737; 16475; 16971; 16481; 16487; 16480; 16463; 16478; 16489; 16491; 9732; 16490; 9738; 9744; 9741; 16484; 9740; 16479; 16467; 16472; 16483; 9739; 9736; 9731; 9734; 16471; 15855; 16466; 16469; 16486; 16474; 16464; 16970; 16488; 16468; 16482; 19582; 16973; 10020; 10008; 10012; 16975; 16981; 16979; 10010; 10011; 10018; 16982; 16974; 10013; 16978; 16977; 16983; 10019; 10014; 10017; 16976; 10021; 10015; 10022; 10009; 16980; 16972; 17419; 19565; 10254; 17416; 17418; 10252; 17414; 17415; 17410; 16476; 17411; 10253; 17407; 10250; 17420; 10251; 17408; 17409; 17413; 10256; 10255; 17412; 10418; 17772; 17778; 10419; 17769; 10416; 10413; 17780; 10417];
  [10414; 17771; 17774; 17775; 17776; 17779; 17417; 17770; 10415; 17777; 17781; 17773; 18084; 10561; 18087; 10562; 18095; 18086; 18083; 18085; 18089; 18092; 18091; 18094; 18082; 10560; 18090; 18093; 18096; 18088; 18325; 18326; 18330; 18331; 18328; 18329; 18327; 19594; 10654; 10732; 18506; 18503; 18504; 18505; 10733; 18657; 18656; 18760; 10822; 18758; 18761; 18759; 18830; 10856; 10870; 18905; 18884; 18904; 18950; 18951; 5642; 5910; 11462; 11648; 6154; 6157; 19139; 11649; 6155; 6156; 19595; 19597; 11956; 11958; 11953; 11950; 11952; 6503; 19189; 6501; 11954; 6502; 11951; 11948; 6500; 11955; 11949; 6504; 11957; 12323; 12327; 6836; 19596; 12330; 6828; 6831; 6833; 6835; 6832; 12326];
  [12325; 6830; 12328; 12329; 12322; 6834; 6829; 19623; 12324; 12772; 12773; 12774; 7238; 7234; 12763; 19598; 12771; 12776; 7239; 12761; 12767; 12760; 12770; 19599; 19600; 12766; 7235; 7237; 12775; 12759; 12762; 12768; 19601; 12769; 12777; 12765; 7236; 7738; 13359; 13361; 13357; 13369; 13355; 13368; 7734; 13353; 14000; 13363; 7737; 13364; 13367; 13371; 13360; 13365; 7735; 7736; 13370; 13358; 13354; 13372; 13362; 13366; 13356; 8172; 8173; 14010; 8179; 13998; 14007; 13997; 8176; 14005; 14003; 14004; 8174; 14008; 19607; 19617; 14001; 13999; 8175; 14002; 14006; 8177; 14009; 14649; 14656; 14658; 14664; 19608; 8598; 14644; 8590; 19610; 14659; 8595; 14665; 8586; 19614; 14662];
  [14646; 14663; 14645; 8600; 14657; 8587; 14666; 8592; 14650; 8597; 14661; 14648; 14655; 14651; 14647; 8589; 8596; 8594; 8591; 8599; 8588; 14654; 8593; 8178; 14660; 14652; 14653; 15324; 9031; 15320; 15326; 15322; 9033; 15321; 15325; 15317; 15319; 9032; 15323; 15318; 9034; 9029; 19605; 15327; 9030; 15896; 15893; 15905; 15899; 15901; 9409; 15895; 15903; 15902; 15900; 15906; 9412; 15897; 15904; 9410; 15892; 15894; 9411; 15891; 15907; 19604; 15898; 16495; 9751; 19621; 16506; 16504; 9745; 16494; 16497; 16498; 16493; 9755; 9756; 16492; 16507; 16502; 9749; 9746; 16501; 16499; 9752; 16503; 9747; 9748; 16500; 9750; 16496; 16505; 9753; 16508; 16509; 9754; 19106; 10024];
  [10031; 16984; 16990; 16988; 10027; 10026; 10023; 16986; 10029; 10028; 10025; 16989; 16985; 16987; 10030; 10260; 17423; 10257; 10258; 17425; 10259; 17422; 17421; 17785; 17424; 17786; 10420; 17784; 17783; 17782; 10421; 19624; 10563; 18097; 18098; 19626; 18334; 18333; 10655; 18332; 18507; 18508; 18658; 18762; 19629; 18831; 18930; 10890; 18940; 5643; 6505; 6506; 19632; 6837; 10032; 5644; 6507; 7240; 8601; 5645; 7739; 9035; 11338; 19633; 12331; 12778; 15328; 10033; 5646; 6508; 12332; 12333; 14011; 8180; 14667; 8602; 15329; 19636; 9413; 19637; 10422; 5647; 14012; 5648; 5912; 11463; 5911; 6160; 6159; 6158; 11650; 6509; 6510; 11959; 12334; 12337; 6839; 12335; 6838; 12336];
  [6840; 12781; 12780; 12779; 7241; 13374; 13375; 7740; 13373; 13376; 8182; 7741; 19642; 8181; 14016; 14015; 14013; 14014; 14017; 14669; 14668; 14672; 14671; 14670; 9036; 15332; 15331; 9037; 15330; 15908; 15909; 9414; 16510; 16511; 17791; 10423; 17790; 17789; 17787; 17788; 10656; 18099; 18509; 18832; 5649; 11371; 5753; 11372; 11464; 11465; 11656; 11652; 11651; 6511; 11655; 6162; 11653; 6161; 11657; 11654; 11963; 12338; 11961; 11968; 6512; 6515; 11969; 11965; 11966; 11960; 6514; 11962; 6513; 11967; 11964; 12342; 6842; 6843; 12345; 12339; 12344; 12340; 6841; 12343; 12341; 12787; 12784; 12786; 7246; 7245; 7243; 12783; 12788; 7242; 7244; 12785; 13384; 12782; 12789; 13379];
  [13383; 13382; 14019; 14030; 13385; 13380; 14018; 7745; 7744; 13378; 13381; 7746; 7743; 7742; 13377; 13386; 14021; 14028; 8184; 14027; 14024; 19649; 8186; 19643; 19644; 14026; 19650; 14020; 14022; 14025; 14023; 8185; 14029; 8183; 8603; 14676; 14675; 14673; 8606; 8605; 14677; 14674; 15333; 9038; 8604; 14679; 14678; 15336; 15334; 9415; 9039; 15335; 15911; 9416; 15910; 15919; 15918; 15916; 15915; 15912; 15913; 15914; 15917; 15920; 16516; 16513; 16514; 9757; 16512; 16518; 16517; 16515; 16992; 16993; 10034; 10035; 16991; 10262; 17426; 10261; 10424; 10425; 10564; 18101; 18100; 18335; 18510; 10734; 18660; 18659; 18661; 5754; 12346; 7247; 7747; 13387; 5755; 11373; 5650; 11466];
  [11662; 11660; 11661; 11658; 6163; 11659; 19124; 11977; 6518; 11975; 11971; 11974; 11970; 6520; 11973; 19121; 6517; 6516; 19652; 6519; 11976; 11972; 6847; 6850; 12354; 12353; 12352; 6844; 12361; 12351; 6846; 12794; 12358; 12356; 6849; 12348; 12359; 12350; 12360; 12357; 12349; 19655; 6845; 12362; 12347; 6848; 19271; 19651; 12799; 12790; 12801; 19101; 12793; 12804; 12805; 12791; 12803; 12800; 12798; 12802; 7253; 7251; 12796; 19677; 12792; 12795; 12806; 12797; 7252; 12355; 7248; 7250; 19003; 13401; 13390; 13388; 19665; 13389; 13396; 13397; 13393; 7752; 13398; 13395; 13392; 7750; 13391; 7748; 7751; 13394; 13402; 7249; 7749; 13400; 13399; 7753; 19666; 14035; 19159; 14036];
  [8196; 14042; 14044; 14037; 8190; 14041; 14040; 8191; 8197; 8198; 14043; 8188; 14034; 14032; 14038; 14031; 8195; 14033; 14039; 14045; 8189; 8194; 8192; 8193; 19669; 8187; 8613; 14686; 8612; 14690; 14680; 14691; 19676; 19656; 14681; 14682; 14692; 14689; 14687; 14688; 14684; 14683; 19559; 14693; 8609; 14685; 8614; 8608; 8615; 8616; 19712; 8611; 8610; 19674; 15337; 9041; 9040; 19243; 15342; 9417; 9042; 19680; 9044; 15343; 8607; 9043; 15339; 15341; 15338; 19682; 15340; 19678; 15930; 15929; 15926; 9420; 16519; 9421; 15925; 19685; 9419; 15927; 15924; 15921; 15928; 15922; 15923; 9418; 16997; 16523; 16522; 16524; 16994; 9760; 16520; 9758; 9762; 9761; 16521; 16525];
  [9759; 19360; 17001; 10038; 10263; 10039; 10036; 16998; 16996; 16999; 17002; 10037; 17000; 16995; 17429; 17432; 17794; 17427; 18102; 17433; 10426; 17431; 10264; 17428; 17430; 17434; 17795; 17793; 19694; 10427; 17792; 10565; 10658; 18512; 10657; 18514; 18511; 18513; 10786; 18763; 5756; 11978; 12807; 12808; 7754; 14694; 9763; 10428; 10735; 18764; 5757; 11979; 5213; 12363; 12364; 12809; 12810; 7755; 7756; 14046; 14697; 14696; 14695; 15344; 15345; 15346; 9045; 15932; 15931; 16526; 9764; 9765; 19696; 17006; 17003; 17004; 17005; 17436; 17435; 10265; 17796; 18336; 5758; 6851; 7757; 14698; 19698; 5759; 12811; 7758; 8199; 8200; 5760; 5761; 11467; 6165; 6164; 6852; 12365; 14047];
  [5762; 5763; 5764; 5765; 6166; 6167; 11664; 11663; 6521; 11982; 11980; 11981; 12366; 12367; 19705; 6856; 6854; 19704; 6855; 6853; 7254; 7258; 7257; 12812; 7256; 7255; 12813; 7761; 13404; 13403; 7759; 7760; 19706; 8202; 8201; 14049; 19707; 14048; 7762; 8617; 14700; 8618; 14699; 15347; 15933; 9422; 16527; 17007; 10430; 10429; 10736; 5766; 11983; 19711; 7763; 15348; 9046; 10947; 11665; 11666; 11984; 6523; 6524; 6522; 19713; 6860; 6861; 6858; 6859; 12368; 12369; 6857; 12814; 7262; 7263; 19714; 7766; 12820; 7268; 7266; 12821; 12816; 7265; 7264; 7259; 12819; 12818; 12815; 7267; 12817; 7260; 7261; 7767; 13408; 13409; 7768; 13405; 13407; 13411; 13410];
  [13406; 7764; 7765; 14057; 8207; 8206; 14051; 8204; 14054; 8208; 14055; 8209; 14052; 8203; 8205; 14056; 14053; 14050; 14713; 14702; 8620; 8623; 8622; 8627; 8626; 14714; 14712; 14705; 14709; 14708; 8624; 14711; 14707; 14715; 14706; 8625; 8619; 8621; 19715; 14704; 15350; 9050; 15354; 9049; 15351; 9048; 14703; 14710; 15353; 9051; 15355; 15352; 15349; 15936; 15940; 15942; 15938; 15937; 15935; 9425; 9423; 9428; 9429; 15939; 9426; 15934; 9427; 9047; 15941; 9424; 19716; 16529; 16528; 16536; 16530; 16535; 16532; 9766; 16534; 9767; 9768; 16533; 16531; 10041; 17008; 10040; 17011; 17009; 17010; 10042; 19718; 17440; 19717; 10268; 17441; 10266; 17442; 10267; 17439; 17443];
  [17437; 10431; 17797; 10432; 10566; 17438; 10567; 10659; 18337; 10738; 18515; 10737; 19719; 18662; 10823; 10824; 18946; 10948; 6862; 12370; 8210; 8211; 5767; 5913; 11468; 11667; 6168; 6525; 6863; 6864; 6865; 13413; 12822; 7269; 7769; 13412; 19722; 14059; 8213; 14058; 8212; 14716; 9430; 15946; 15943; 15944; 15945; 19727; 17012; 19728; 17444; 18104; 18103; 18516; 5768; 11985; 7270; 8214; 14717; 19729; 15356; 9431; 16537; 17445; 18105; 5769; 6526; 6868; 12371; 6869; 6867; 6866; 12823; 7271; 19730; 7272; 7273; 7771; 13414; 7770; 14060; 7772; 8215; 14718; 8628; 8629; 9052; 9053; 9432; 9770; 16538; 9769; 17013; 10043; 17446; 18106; 5770; 6169; 11988; 11987];
  [6527; 11986; 6528; 11989; 12377; 6872; 6871; 12379; 12378; 6876; 6875; 6870; 12373; 12374; 12375; 6877; 12372; 6873; 12376; 6874; 12826; 12830; 12828; 12827; 12831; 12832; 12833; 12825; 12824; 19736; 7275; 7276; 12834; 12829; 13423; 19737; 12835; 7277; 7274; 13417; 13416; 13418; 13419; 13421; 13420; 13425; 7776; 7773; 7777; 13415; 7778; 13424; 7775; 13422; 7774; 19738; 14063; 14065; 14061; 14062; 14066; 14068; 14069; 14064; 14067; 8216; 14722; 14727; 14719; 14723; 19741; 14728; 14724; 8630; 8638; 8633; 14720; 14721; 9057; 8641; 8634; 8639; 8632; 14726; 8640; 14725; 8636; 8631; 8637; 14729; 15361; 15363; 8635; 15358; 9055; 15364; 9056; 15362; 15357; 15360];
  [15365; 9054; 15359; 9434; 15950; 15949; 9437; 9435; 15947; 9433; 15948; 9436; 16546; 16548; 16547; 16539; 16543; 16542; 16540; 9772; 9773; 9771; 16541; 16544; 16545; 9774; 10048; 17021; 10045; 17015; 10047; 10049; 19743; 10046; 17020; 17016; 10044; 17019; 17014; 17018; 17017; 17448; 10271; 10272; 10269; 10270; 17447; 17800; 19445; 10433; 17798; 17799; 18107; 18110; 18108; 18109; 18338; 10660; 18663; 18765; 10825; 18833; 18834; 10871; 5771; 6878; 14070; 14730; 5772; 6170; 6529; 19115; 12380; 12381; 7278; 14071; 8217; 8642; 10050; 17022; 17801; 18111; 5773; 19747; 11995; 11990; 11992; 11994; 11993; 11991; 6530; 6879; 12390; 12385; 12382; 12389; 6881; 6882; 12388; 12387];
  [12386; 12383; 12384; 12391; 6880; 7282; 7288; 7287; 12844; 12838; 12836; 7285; 13432; 7280; 12841; 12845; 12847; 12843; 12837; 7286; 12842; 12840; 7279; 12848; 7289; 12846; 7283; 12839; 7284; 7281; 19012; 7780; 13433; 13426; 13428; 13430; 13431; 13429; 7781; 13434; 13427; 14075; 8218; 14083; 14072; 14084; 14073; 14074; 14082; 14081; 14078; 7779; 8219; 14076; 14079; 8220; 14080; 14077; 14741; 14745; 8649; 15371; 8652; 14743; 18956; 14740; 14735; 14737; 14738; 14731; 8648; 8647; 8643; 14734; 8650; 8651; 14733; 14736; 14744; 8645; 8646; 14742; 14732; 15373; 9059; 15375; 14739; 15377; 9063; 15378; 15374; 9060; 15370; 9062; 15367; 15372; 15376; 15369; 19752; 8644];
  [19760; 15366; 9061; 15368; 9440; 15952; 9444; 9442; 9058; 15959; 15960; 9439; 19753; 15958; 15961; 9441; 9438; 15954; 15951; 15956; 15953; 9445; 15955; 19754; 15957; 9443; 19758; 9776; 16555; 16549; 16553; 16559; 16560; 16556; 16557; 16554; 16551; 9778; 9775; 16550; 16552; 9777; 16558; 10054; 19176; 17028; 17023; 10053; 10051; 17030; 10052; 17026; 17027; 17024; 17031; 17449; 10055; 17025; 17032; 17029; 17453; 17450; 10273; 17454; 17456; 17455; 17451; 17452; 17806; 10434; 17803; 17805; 17802; 17807; 17804; 18113; 18116; 18112; 10568; 18114; 18115; 18117; 10569; 10571; 10570; 18339; 19756; 18341; 18340; 19759; 18517; 18766; 18835; 5774; 19774; 11668; 6531; 11997; 6532; 6533];
  [11996; 12396; 12395; 6883; 6886; 6885; 6884; 12392; 12394; 12393; 12851; 7291; 12855; 12854; 12853; 12849; 7290; 7294; 7297; 7298; 12850; 12852; 7296; 7295; 7293; 7292; 13441; 13439; 13435; 7782; 13436; 7783; 13437; 13438; 13440; 7784; 14088; 19352; 14087; 14086; 14085; 14749; 8653; 14746; 14748; 8654; 19770; 8655; 14747; 19767; 15387; 15380; 15381; 9066; 9064; 9065; 15389; 15388; 15385; 15384; 15383; 15382; 15386; 15379; 15962; 15967; 15965; 19772; 15964; 15963; 15966; 16561; 9779; 10056; 17034; 19775; 10057; 17033; 17458; 17457; 10274; 17808; 10435; 18118; 10739; 18518; 18768; 18767; 11374; 6887; 6888; 13442; 8657; 5775; 6173; 6172; 6171; 11998; 19779; 6535];
  [6534; 6891; 19561; 12398; 12401; 12399; 6889; 6890; 19781; 12397; 12400; 7305; 12862; 12864; 12863; 7302; 12858; 7300; 7299; 7303; 7301; 7304; 12861; 12856; 12857; 12860; 12859; 13445; 13446; 13444; 13443; 7785; 8225; 14089; 14091; 14093; 8224; 8222; 14090; 8223; 14092; 8221; 14759; 14750; 14753; 14757; 8661; 14755; 14754; 14751; 14752; 8659; 14758; 8658; 8663; 8662; 8660; 14756; 15395; 15394; 15390; 9067; 15393; 15392; 9068; 9450; 15969; 9451; 9447; 9449; 9446; 9448; 16562; 9782; 16564; 16563; 15391; 9784; 9783; 9780; 9781; 17039; 17037; 10058; 17038; 17040; 17036; 17035; 17459; 10277; 10275; 10276; 17809; 17810; 10437; 10436; 18120; 18121; 18119; 18519];
  [18520; 5776; 11469; 6174; 11999; 6537; 6536; 12000; 12403; 6892; 12402; 6893; 7306; 12867; 12865; 12871; 7307; 12866; 12870; 12868; 12869; 13447; 13449; 7786; 13448; 7787; 8228; 8227; 8226; 14094; 14762; 8664; 8665; 14761; 14760; 15396; 9070; 9069; 15397; 15398; 9453; 9452; 16568; 15970; 15972; 15971; 16567; 16565; 16569; 16566; 9785; 17041; 10059; 17042; 17043; 10278; 10279; 10572; 10787; 5777; 12404; 12872; 7308; 7938; 7937; 8230; 14096; 8229; 14095; 14763; 9071; 15399; 9072; 10573; 18122; 5914; 6538; 12001; 6895; 6894; 12405; 12406; 12874; 12876; 7309; 12878; 12881; 12879; 12880; 12877; 12873; 7310; 12882; 12875; 13458; 7793; 13467; 7790; 13460; 7794];
  [7788; 13455; 13468; 13456; 13453; 7792; 7789; 13459; 13462; 7791; 13463; 7795; 13464; 13454; 13461; 13465; 13457; 13452; 13450; 13466; 14098; 14103; 14099; 14105; 8233; 13451; 14100; 8231; 14097; 8238; 14101; 8237; 14102; 8239; 8234; 8240; 8235; 8236; 8232; 14104; 8668; 14774; 14777; 14765; 14770; 14764; 8670; 14768; 14766; 8669; 14773; 14772; 14769; 14771; 14767; 9076; 14776; 8666; 14775; 15415; 9083; 15410; 9082; 15400; 15402; 9075; 15407; 15406; 15409; 9080; 15404; 15403; 9079; 9074; 15405; 9077; 15411; 15413; 15408; 15401; 9078; 9461; 9073; 15414; 15976; 9454; 15978; 9455; 9457; 15981; 15973; 9081; 15979; 15975; 8667; 9460; 9456; 9458; 9459; 9788];
  [15980; 15974; 9462; 15977; 16579; 16574; 16584; 9786; 16576; 9790; 16582; 16573; 16570; 16585; 10065; 9791; 16581; 16571; 9789; 16575; 9793; 16572; 16577; 9792; 16580; 16583; 17061; 17062; 17046; 17053; 17051; 10063; 17058; 16578; 17049; 17059; 10062; 17048; 17047; 17057; 17054; 17056; 17044; 17060; 10060; 17055; 17064; 17052; 10064; 10061; 17050; 17045; 17063; 9787; 19083; 17462; 17460; 17466; 10283; 17464; 17463; 10285; 17469; 10284; 17470; 17467; 10281; 17468; 17461; 10282; 10280; 17814; 17465; 17471; 17811; 10442; 10440; 17813; 17815; 17812; 10441; 10438; 10439; 10443; 10575; 18127; 18126; 18124; 18123; 18125; 10574; 10576; 10661; 18343; 18342; 18521; 18523; 18525; 18524; 18522];
  [10741; 10740; 10789; 10788; 10790; 18665; 18664; 18836; 18769; 18837; 10857; 10858; 18885; 10895; 5915; 12002; 12408; 12409; 12407; 6896; 12410; 12411; 12412; 12883; 12889; 12887; 7311; 12885; 12886; 12888; 12884; 7796; 13469; 7798; 13471; 7797; 13470; 14107; 8241; 14109; 14106; 13472; 8242; 18961; 14108; 14780; 8671; 14778; 8672; 14779; 8673; 9084; 15419; 15416; 15418; 9085; 9086; 15417; 15982; 15983; 9463; 15985; 15984; 5214; 16589; 16590; 16586; 16587; 9794; 9795; 16588; 10071; 10067; 10072; 10068; 10070; 10066; 10069; 10286; 17065; 17817; 17816; 18128; 10577; 10578; 18527; 18344; 18526; 18838; 18906; 5916; 6175; 12003; 6539; 6899; 12415; 6897; 12413; 6902; 6898];
  [6903; 6901; 12414; 6900; 7315; 7314; 12900; 7323; 12893; 12899; 7319; 12892; 12898; 12896; 7318; 7320; 12895; 7313; 12894; 7324; 7321; 7325; 7322; 12891; 12890; 12897; 7316; 7312; 7317; 13487; 13480; 8247; 13479; 7802; 7809; 7806; 7812; 7811; 7807; 13473; 13476; 13475; 7803; 13477; 13486; 7804; 13474; 13483; 13484; 7805; 13481; 7810; 7800; 7808; 13478; 7799; 13482; 13485; 14126; 14117; 8244; 14124; 14121; 14113; 14122; 8246; 14114; 14110; 8679; 14119; 8243; 14125; 8250; 8252; 14112; 8251; 14115; 8245; 14123; 14116; 14120; 14118; 8248; 14111; 8253; 7801; 8249; 8254; 8675; 14787; 14789; 14791; 14795; 14785; 14783; 8677; 14790; 14794; 14786; 14782];
  [14781; 14792; 14784; 14788; 8678; 8676; 14796; 8674; 14793; 15436; 9089; 15428; 9476; 15438; 9092; 15442; 9098; 15423; 15439; 15420; 15441; 15424; 9105; 9102; 15440; 15434; 9088; 9096; 9095; 9094; 9100; 15421; 9101; 15435; 9097; 9087; 15437; 9090; 9091; 9099; 15426; 15425; 15422; 15430; 15427; 15431; 9104; 15443; 9093; 15432; 15433; 15429; 9103; 15990; 9468; 9477; 9473; 15987; 9470; 9474; 15999; 9464; 15991; 9472; 15994; 15989; 9471; 9475; 15988; 9469; 15998; 9466; 15997; 15996; 9478; 15750; 9465; 15995; 15986; 9479; 15993; 9467; 15992; 9798; 9803; 9796; 16603; 16594; 16606; 16598; 16604; 9804; 9797; 16591; 16597; 16607; 16600; 16605; 16593; 16601];
  [9799; 16599; 9802; 9801; 16595; 16596; 16592; 16602; 9800; 16609; 16608; 17076; 17072; 10079; 17066; 10073; 10089; 17078; 10081; 10077; 17069; 10084; 10087; 17080; 10076; 17071; 10085; 17082; 17079; 17067; 10080; 10074; 10088; 17074; 10083; 17068; 10078; 17081; 10082; 10075; 17075; 10086; 17073; 17077; 17473; 17479; 10292; 17482; 10287; 10288; 17474; 17481; 17476; 10293; 10290; 17472; 10289; 17478; 17480; 10291; 17477; 17475; 17827; 10447; 10448; 10444; 10445; 17823; 17821; 17825; 10450; 17826; 17819; 17818; 17822; 17820; 10446; 17824; 18129; 10581; 10580; 18130; 18132; 18131; 10582; 18349; 18346; 18347; 18345; 18348; 10663; 18350; 10662; 18528; 10791; 10793; 18666; 10792; 18770; 18840];
  [18842; 18839; 18841; 10877; 5917; 6904; 12764; 7326; 7813; 14127; 14128; 16610; 10090; 17083; 10294; 17829; 17828; 10583; 18351; 18529; 10826; 11470; 6540; 6176; 12416; 12906; 12901; 12905; 12903; 7327; 12904; 12902; 13488; 14129; 14130; 14799; 14800; 8681; 8682; 14798; 14801; 14797; 8680; 9106; 8683; 15444; 9480; 16000; 9481; 9805; 16613; 16611; 16612; 17086; 17085; 17084; 17830; 10449; 17831; 18530; 10827; 18771; 5918; 6542; 6541; 12418; 6905; 19538; 12417; 12908; 7328; 13489; 12907; 7815; 13492; 13490; 13491; 7814; 14132; 14133; 14131; 8686; 14803; 14802; 14804; 8685; 8684; 16001; 16003; 9482; 16002; 16614; 9806; 17484; 17483; 10451; 17832; 10453; 10452; 18133];
  [18352; 10664; 5919; 12419; 6906; 12911; 7330; 12910; 12909; 7329; 13498; 13500; 13493; 13494; 7816; 13495; 7817; 13499; 13496; 13497; 7818; 8256; 8257; 14134; 14805; 14806; 15448; 9109; 9107; 9108; 15445; 15446; 15447; 16008; 16009; 9483; 16006; 16005; 16007; 16004; 9809; 16615; 9807; 9808; 17088; 10091; 17087; 17340; 17485; 17486; 10295; 10296; 10092; 17833; 17834; 18134; 10584; 5920; 5921; 6907; 6543; 7331; 12420; 8258; 5922; 6909; 12421; 12422; 6908; 6910; 5923; 12423; 7333; 12912; 7335; 7332; 7334; 13503; 7819; 13502; 13501; 14807; 15449; 9484; 9810; 16617; 16616; 17089; 18353; 5924; 11669; 12004; 6911; 12424; 12914; 7336; 12913; 7337; 13505; 7821];
  [13504; 13506; 7820; 14136; 14137; 14135; 8259; 8687; 8688; 9111; 15451; 15450; 9110; 16010; 16011; 16618; 10096; 10095; 10093; 10094; 10097; 17487; 10298; 10297; 17835; 18135; 10743; 10742; 5925; 12713; 8690; 8260; 8689; 9112; 5926; 11375; 5927; 5928; 12005; 11672; 11673; 6178; 11670; 6177; 6180; 11671; 6182; 6181; 11674; 6179; 6548; 6546; 12007; 6545; 6550; 6552; 6549; 12010; 12006; 6553; 6547; 6183; 6551; 12009; 12008; 6544; 12430; 6915; 6916; 12432; 12426; 12429; 12438; 12436; 6917; 12442; 6920; 12439; 12431; 12428; 14139; 12437; 6912; 12440; 12425; 12434; 6914; 6919; 12435; 6923; 6921; 12427; 6918; 12433; 6922; 6913; 12441; 7342; 7351; 7340];
  [7338; 12916; 7346; 7343; 12918; 7345; 12917; 12915; 12920; 7350; 7348; 14138; 12921; 12919; 7339; 7341; 7344; 7347; 7349; 13516; 7823; 13507; 13509; 13510; 13518; 13514; 13512; 13515; 13519; 7824; 7828; 13508; 13517; 7826; 7825; 13513; 13511; 7822; 7827; 8266; 14147; 14145; 8268; 14140; 14821; 8267; 14144; 14141; 8263; 8269; 14146; 8265; 14143; 9113; 8264; 14142; 8270; 8262; 8261; 14813; 14811; 14817; 14809; 14822; 14814; 14808; 8694; 8700; 14819; 14812; 8697; 8695; 14820; 8692; 8691; 14815; 8696; 8271; 14818; 14810; 8693; 8698; 8699; 9118; 9114; 9119; 15454; 15453; 15455; 9116; 15452; 9117; 15458; 15457; 15456; 9115; 16015; 16018; 9490; 16017];
  [9489; 9485; 9486; 9487; 16014; 16013; 9488; 16016; 16012; 16620; 16630; 9813; 9812; 16624; 16626; 16621; 16625; 16619; 16628; 9811; 16627; 16623; 16629; 16622; 10100; 17090; 17096; 10104; 10106; 10103; 10102; 10101; 10099; 17091; 17094; 10098; 17095; 10105; 17093; 17092; 10299; 10300; 17490; 17488; 17489; 17837; 17836; 10454; 18137; 10585; 18136; 18354; 18531; 10744; 18843; 18844; 10794; 5929; 6554; 14148; 9120; 10107; 17097; 5930; 7353; 7352; 14149; 19723; 16631; 5931; 6924; 14150; 14151; 14152; 9121; 9814; 5932; 6555; 12443; 7354; 12922; 7829; 14153; 8701; 9122; 9815; 10108; 10301; 18138; 5933; 6556; 7355; 13520; 8272; 9123; 15459; 16019; 5934; 8273; 14823];
  [9124; 5935; 12011; 12444; 6925; 12924; 19523; 7358; 7356; 7357; 7359; 12923; 13525; 13522; 13524; 7830; 7832; 7831; 13521; 7833; 13523; 14154; 14155; 14156; 14826; 14827; 14825; 14828; 8702; 14824; 9125; 16024; 16020; 16023; 16025; 16022; 16021; 16632; 16633; 16634; 9816; 9817; 17099; 17098; 17100; 17492; 17491; 17839; 17840; 17838; 10586; 18139; 18140; 18532; 18667; 18772; 5936; 6184; 10109; 5937; 13526; 14157; 10834; 11471; 11472; 11474; 5938; 11475; 11473; 11682; 11683; 11677; 19294; 11681; 6186; 6187; 11678; 11676; 11675; 11679; 6185; 11680; 12445; 12016; 6559; 12015; 12017; 6558; 12022; 6562; 12012; 12026; 12032; 6569; 12029; 6566; 12019; 12025; 12027; 12014];
  [6565; 6560; 12020; 6567; 6570; 6564; 6557; 12024; 12018; 12031; 6572; 6568; 6563; 12023; 7360; 12021; 6561; 6571; 12013; 12028; 12030; 6942; 6936; 6944; 6941; 12452; 12455; 6937; 12446; 6930; 6940; 6943; 6945; 12467; 12458; 6929; 12466; 6933; 6931; 6926; 12450; 12465; 12454; 12457; 12470; 19010; 6946; 12464; 6938; 12459; 12469; 12456; 12460; 12463; 12448; 12468; 12462; 19289; 12447; 12451; 6939; 6934; 6927; 6932; 6928; 6947; 12449; 12941; 6935; 12461; 12090; 12944; 7374; 12928; 12939; 12935; 12954; 12946; 12936; 12945; 12930; 12934; 12957; 7377; 12949; 12940; 7361; 12955; 12926; 12948; 7376; 7371; 12925; 7369; 7368; 7373; 12947; 7365; 7372; 12453];
  [14158; 12942; 12932; 7375; 12933; 12937; 7378; 12927; 12951; 12950; 12958; 7367; 7364; 12956; 12952; 12943; 12938; 7370; 7366; 12929; 7362; 12953; 7363; 12931; 19489; 13532; 13534; 13539; 13559; 7847; 7837; 13531; 7848; 7849; 13542; 13549; 13555; 13536; 13543; 7850; 13557; 13552; 7845; 7843; 13548; 13544; 13530; 7834; 13535; 13527; 7842; 7844; 13540; 13537; 7839; 13553; 7836; 13538; 13560; 13546; 13545; 7835; 7846; 7838; 13528; 13533; 13550; 13556; 7851; 13529; 13541; 13547; 7841; 13558; 13551; 13554; 19679; 7840; 14174; 14162; 8281; 14191; 14199; 14202; 8279; 14170; 14195; 14171; 14185; 8292; 14181; 8289; 19071; 14182; 14159; 14196; 8298; 14193; 14183; 14204];
  [14178; 14860; 14207; 8296; 14176; 14188; 8299; 8278; 14180; 14205; 14173; 14166; 14177; 14165; 14163; 8274; 14197; 14172; 14200; 14201; 8282; 8287; 8283; 8291; 14192; 8284; 14184; 14168; 8276; 14160; 14194; 14203; 14167; 8290; 14208; 14179; 14175; 8275; 8295; 14190; 8297; 14186; 8286; 8280; 8288; 8277; 8294; 14187; 14169; 14189; 14164; 14198; 19041; 14206; 14161; 19364; 14859; 14881; 8656; 14864; 19555; 14862; 14841; 8706; 14857; 14877; 14853; 8714; 14876; 14851; 8293; 14867; 14852; 14874; 8713; 8705; 14830; 14838; 14863; 14855; 14880; 14858; 8719; 14875; 8710; 14861; 14869; 14842; 14868; 14885; 14837; 14870; 14883; 14831; 8285; 14845; 14844; 8712; 14848; 14850];
  [14865; 14882; 8715; 19732; 8716; 14836; 8708; 14840; 14878; 8717; 8709; 8711; 8718; 14884; 14871; 14866; 14847; 14846; 8707; 14832; 8704; 14856; 14833; 14854; 14843; 14879; 8703; 14839; 14835; 14873; 14834; 9138; 15499; 15482; 15460; 15490; 9130; 15475; 15485; 9133; 15478; 9131; 15463; 15493; 15462; 15481; 15461; 15479; 15488; 15486; 15474; 15469; 15467; 15468; 15487; 15498; 15476; 9132; 15471; 15491; 9135; 15470; 15464; 15480; 9139; 9127; 9136; 15472; 15466; 9129; 14872; 9128; 15483; 9126; 9141; 9134; 15484; 15473; 15465; 15492; 15477; 9140; 15496; 9137; 15495; 15489; 15494; 15497; 16065; 16066; 16053; 16052; 16048; 9502; 9494; 16068; 16067; 14829; 16045; 16049];
  [16043; 16062; 16047; 16069; 16040; 16038; 16050; 16060; 16055; 9504; 16029; 16059; 19221; 9505; 14849; 16041; 16032; 16035; 16073; 16042; 16033; 16031; 16028; 9498; 16051; 9497; 9501; 16046; 16054; 9491; 16070; 16074; 9493; 16037; 16057; 16061; 16034; 16071; 9500; 9499; 16026; 9503; 16064; 16036; 16056; 16030; 16044; 16039; 9495; 9496; 16058; 16075; 16072; 16063; 19550; 16027; 9492; 16651; 16642; 16645; 19084; 9823; 16647; 16636; 16643; 16649; 9820; 9824; 9818; 19001; 16638; 16654; 16648; 16639; 16663; 16657; 16635; 17119; 16641; 9819; 16652; 16662; 9827; 16659; 16640; 16646; 16650; 16644; 16664; 16661; 16658; 9821; 9822; 9826; 16637; 16665; 9825; 16655; 16653; 16656];
  [17132; 17113; 17118; 17131; 17117; 17109; 17114; 10112; 17102; 17126; 17128; 17101; 10111; 17130; 17122; 10118; 17129; 17115; 10120; 17107; 16660; 17123; 17120; 17103; 17134; 10114; 10115; 17105; 17121; 17133; 17124; 17111; 10117; 10113; 17125; 17112; 17135; 17106; 17116; 17127; 17108; 17110; 10310; 17104; 10119; 10303; 10110; 10116; 10307; 17508; 17498; 17493; 17499; 17509; 17513; 17512; 10309; 10308; 17500; 17514; 17503; 17495; 17497; 17496; 17502; 17507; 17494; 17501; 17506; 10306; 17504; 10304; 17505; 10302; 10305; 17856; 17510; 10458; 17848; 17852; 17844; 17847; 17855; 10456; 17860; 17853; 17845; 17861; 17854; 10459; 10460; 17858; 17846; 10455; 10457; 17841; 17849; 17843; 17859; 17857];
  [17842; 17850; 18147; 10461; 17851; 10588; 10590; 10587; 18152; 18144; 18142; 18146; 18143; 18148; 18150; 10591; 10593; 18149; 10594; 10592; 18151; 19086; 10589; 10665; 18355; 18361; 10667; 18145; 18360; 18367; 18358; 18365; 18364; 18141; 18359; 17511; 18368; 18357; 18362; 18366; 18356; 18536; 10666; 18363; 18672; 18537; 18535; 18533; 18534; 18538; 10795; 18670; 18668; 18673; 18671; 18674; 10796; 18669; 18773; 18845; 18846; 18847; 18941; 18931; 11476; 6573; 6948; 12960; 12959; 7379; 7852; 13562; 13561; 8300; 8721; 8720; 8722; 15500; 16076; 16666; 16668; 16667; 10121; 17136; 17515; 18907; 5939; 12035; 12036; 12034; 12033; 6574; 12474; 12472; 12471; 6949; 6951; 6950; 12473; 12972];
  [12969; 12967; 7380; 12970; 7385; 12964; 12979; 12981; 12965; 7382; 12982; 12977; 12963; 12968; 12978; 12974; 12971; 7387; 12980; 12966; 12975; 12961; 7386; 7383; 12973; 12976; 12962; 7384; 7381; 7862; 13569; 7861; 13572; 13575; 7858; 7856; 13564; 13573; 13571; 13568; 13576; 13577; 13579; 13580; 13563; 7855; 13566; 13565; 13578; 7857; 13567; 7859; 7854; 13570; 7863; 7860; 13574; 8307; 14223; 14212; 8304; 14891; 14221; 14209; 8302; 14214; 8305; 14218; 14216; 8308; 8301; 14210; 14213; 8306; 14211; 14222; 14220; 14215; 14217; 14219; 8303; 14892; 14898; 14888; 14894; 8723; 14890; 8729; 8728; 8727; 14897; 8730; 8731; 14887; 14900; 8732; 8726; 8725; 14896; 8733];
  [14886; 14889; 14899; 14895; 15532; 15521; 8724; 9148; 15509; 15530; 15510; 9143; 15507; 15516; 15508; 9145; 15502; 15529; 9146; 15526; 15527; 15503; 9151; 15518; 15512; 15519; 15506; 15531; 15523; 15517; 15501; 9147; 15524; 9150; 15528; 15522; 9144; 15520; 15514; 9142; 15505; 15513; 15525; 15511; 15515; 9515; 14893; 16094; 16103; 16093; 16089; 16086; 9516; 16084; 9149; 16077; 9514; 16083; 9513; 16088; 16085; 16101; 16096; 16090; 16095; 9509; 16087; 16106; 16078; 16079; 16102; 9510; 16107; 9512; 16108; 16092; 15504; 16098; 16091; 16100; 16097; 16082; 9507; 16105; 9508; 16080; 9511; 16678; 16099; 16104; 19055; 16675; 9506; 9828; 16685; 16681; 16679; 16674; 16689; 9832];
  [16670; 16682; 16683; 16673; 16672; 16686; 16676; 16671; 16677; 16688; 16669; 16687; 16684; 9830; 9829; 9831; 16680; 17532; 17138; 10127; 17142; 17139; 17146; 17152; 17141; 17161; 10124; 17155; 17144; 17156; 17151; 17158; 17143; 10129; 10128; 17145; 17159; 17137; 17157; 10122; 17149; 17148; 17153; 17140; 10126; 10130; 17147; 17154; 10131; 17150; 10123; 10125; 17528; 17526; 17533; 17530; 17534; 17519; 17527; 17538; 17160; 17523; 10314; 16081; 17518; 17531; 17525; 17522; 17517; 17516; 17537; 17521; 17520; 10312; 17529; 10311; 10313; 17524; 17536; 17865; 17866; 10465; 17863; 10462; 17871; 10466; 17873; 17862; 17535; 17875; 17864; 10463; 17870; 17872; 17867; 17874; 17869; 17868; 10464; 18154];
  [18155; 18157; 10595; 10596; 18158; 18156; 18153; 18371; 18374; 18370; 10671; 18372; 10670; 10669; 10668; 18373; 18543; 18541; 18540; 18369; 18542; 18375; 18539; 18677; 18643; 18675; 10797; 18676; 18678; 18776; 10828; 18775; 18774; 10829; 10859; 18886; 18909; 18908; 18910; 5940; 12475; 12983; 12984; 14224; 18376; 18777; 5941; 6952; 12476; 13581; 7864; 14226; 14225; 8309; 8734; 16109; 9517; 9518; 9833; 10830; 5942; 12477; 6576; 12479; 12478; 6953; 12985; 12992; 7388; 12990; 12988; 12995; 12986; 12987; 7389; 7393; 12996; 7392; 12994; 12991; 12989; 7390; 7391; 12993; 19763; 7866; 13582; 7871; 13598; 7870; 13600; 13588; 7868; 13599; 13583; 7869; 13595; 13591; 13593; 13587];
  [13594; 7865; 13590; 13589; 13585; 13596; 13592; 13584; 13586; 7867; 13597; 8312; 14237; 14233; 14235; 14230; 14229; 14227; 14234; 14236; 14232; 14231; 8310; 8311; 14239; 8742; 14902; 14908; 14903; 14904; 18958; 14909; 8744; 8736; 8743; 14901; 14228; 8739; 8737; 14907; 14906; 8738; 8740; 14905; 8735; 8741; 15534; 9158; 15545; 15544; 15539; 9160; 15543; 15535; 15536; 9152; 9154; 15541; 15533; 9156; 9155; 15537; 15542; 15540; 9157; 15538; 19768; 14238; 9153; 16110; 16117; 9520; 16121; 9524; 16113; 16111; 16120; 9519; 16119; 9521; 9522; 16112; 9523; 16118; 16114; 16115; 16116; 9159; 16690; 16702; 9838; 16697; 16699; 9836; 16691; 16695; 16698; 9834; 9837; 16701];
  [16693; 16694; 16700; 16692; 16696; 9835; 17163; 17162; 10133; 17168; 10135; 10132; 17164; 10136; 17165; 17166; 17169; 10134; 17543; 17546; 17540; 17542; 17541; 17544; 17545; 17167; 17539; 10469; 17879; 17882; 17884; 17877; 17878; 17881; 17883; 10470; 10468; 10467; 17880; 17876; 18159; 10597; 18160; 18378; 10672; 18380; 10673; 18377; 18379; 10746; 18544; 10745; 18681; 18680; 18679; 18848; 18849; 18851; 18850; 11477; 5943; 6954; 13601; 8313; 14910; 10315; 17885; 6188; 7873; 7872; 14240; 8314; 14242; 14241; 14911; 8745; 15546; 15549; 15548; 15547; 16122; 16124; 16123; 9840; 9839; 10137; 17170; 17172; 17171; 10316; 17887; 17886; 18161; 10598; 10674; 18546; 18545; 10860; 6189; 12480];
  [6955; 13604; 13602; 13603; 14244; 14245; 14918; 14243; 14912; 14916; 14915; 14917; 8746; 14914; 14913; 14919; 15552; 15550; 15551; 16127; 16125; 16126; 16703; 17173; 17174; 10317; 17888; 18162; 10599; 18381; 18547; 10747; 18682; 18852; 6190; 6957; 6958; 12481; 12482; 6956; 7399; 7397; 7396; 7403; 7395; 7404; 12997; 7401; 7398; 7402; 7400; 7394; 7881; 7875; 13608; 7880; 7882; 7876; 7877; 13606; 7874; 13607; 7879; 13605; 7878; 8325; 8327; 14248; 8326; 8315; 8319; 8765; 14924; 14250; 8320; 14253; 14254; 8324; 14256; 14258; 14259; 14247; 14246; 14260; 8323; 14257; 14255; 8321; 8317; 8328; 14251; 14252; 14249; 8322; 8318; 8316; 14923; 8760; 8755; 8750];
  [8766; 8751; 8747; 8762; 8759; 8761; 8752; 8757; 8748; 8749; 14931; 14928; 14920; 14925; 8763; 14932; 8764; 8754; 14922; 14930; 14926; 14929; 14927; 8758; 14921; 8753; 15555; 9162; 9165; 15557; 9173; 15556; 9167; 9529; 15558; 9172; 15554; 9174; 9163; 8756; 9166; 9164; 9168; 9170; 9161; 9175; 9171; 9169; 15553; 9536; 9532; 9539; 16130; 9540; 16142; 16135; 9525; 16143; 16137; 9535; 16138; 9534; 16141; 9528; 16139; 16129; 9527; 16714; 9533; 9530; 9538; 16128; 16132; 9526; 16131; 16133; 16134; 9537; 16136; 16140; 16144; 9541; 9846; 16709; 16715; 16712; 16704; 16716; 16705; 16711; 9841; 9847; 16717; 9843; 9853; 9848; 16719; 16713; 9844; 16706];
  [9854; 16707; 16708; 9855; 9852; 9531; 9842; 16720; 9856; 9849; 16718; 9845; 9850; 9851; 10145; 17179; 17188; 17185; 17187; 10142; 17180; 17186; 10138; 17182; 10146; 17178; 17183; 17190; 16710; 17184; 17177; 10139; 17176; 10140; 17191; 10141; 17189; 10144; 17175; 10143; 17181; 17549; 17563; 17558; 17560; 17548; 10318; 17547; 10321; 10320; 17562; 17554; 17551; 17557; 17550; 17552; 17561; 17559; 10319; 17566; 17564; 17555; 17565; 17556; 17892; 10471; 17899; 18384; 10478; 17553; 17890; 10474; 17891; 17896; 10476; 10477; 17889; 17898; 17900; 17893; 17895; 17897; 17894; 17901; 10473; 10479; 10475; 10472; 18165; 10604; 18163; 18167; 18168; 10602; 18169; 18166; 18164; 10605; 10601; 18170];
  [10603; 10600; 10675; 10676; 18383; 18382; 18385; 18386; 10677; 18548; 18553; 10748; 18550; 18549; 18552; 18551; 18686; 10798; 18685; 18683; 18684; 10832; 10831; 18778; 18779; 10833; 18853; 18854; 10872; 10878; 18911; 18942; 6191; 13609; 13610; 14933; 15559; 16145; 10148; 10147; 17567; 17902; 18687; 6192; 12998; 7405; 7883; 14935; 14934; 9542; 16146; 9543; 17192; 10322; 10887; 6193; 12037; 12999; 7884; 13611; 13612; 14261; 8329; 8767; 14937; 14936; 14938; 15560; 15561; 9176; 9857; 9544; 9858; 17196; 17193; 17195; 17194; 10149; 17568; 17904; 17903; 11684; 7407; 7406; 13000; 13613; 14263; 14262; 8330; 14940; 14941; 14939; 8769; 8768; 9178; 9177; 16147; 16723; 16721; 16722];
  [9859; 17198; 17197; 17571; 17570; 17569; 17905; 18912; 6194; 6959; 6960; 7408; 7409; 13002; 13001; 13614; 7890; 7888; 7885; 7889; 7887; 7886; 8331; 14266; 8774; 8333; 8338; 14268; 8340; 8339; 8342; 14267; 14264; 8336; 8332; 8334; 14265; 8341; 8337; 8335; 8776; 8775; 8773; 8777; 8771; 8772; 8770; 14942; 15563; 9180; 9181; 9179; 15562; 15564; 16150; 16152; 9553; 16153; 9546; 16149; 9545; 9555; 9551; 9552; 9548; 16148; 9547; 16154; 16151; 9554; 9549; 9550; 16725; 16727; 16726; 16728; 9860; 16724; 10153; 17199; 10150; 10154; 10152; 10151; 17572; 17575; 17574; 17573; 10323; 17906; 17907; 10480; 17908; 10481; 10607; 10606; 18387; 10678; 18388; 18554];
  [10749; 10750; 18688; 10835; 6195; 7892; 7891; 14943; 14944; 9182; 16729; 9556; 16730; 17200; 6196; 12483; 6962; 6961; 13003; 7410; 13004; 13617; 13616; 13615; 14270; 8345; 14269; 8344; 14271; 8343; 14946; 14949; 14947; 14948; 14952; 14945; 14953; 14950; 14951; 9184; 15565; 9183; 16158; 16156; 9557; 16155; 16157; 9558; 16731; 16732; 10155; 17910; 17912; 17909; 17911; 18171; 18389; 18887; 6197; 6963; 13005; 13007; 13006; 13620; 7894; 13618; 7893; 13621; 13622; 13619; 14283; 8353; 14275; 14281; 8348; 8351; 14274; 8346; 14278; 14959; 8350; 14273; 14279; 14276; 14282; 14272; 14280; 8349; 8352; 14277; 8347; 8779; 14955; 8778; 14962; 14961; 8785; 8786; 14963; 8780];
  [14960; 8784; 14965; 14956; 14958; 8781; 14954; 14957; 14964; 8782; 14966; 8783; 9185; 15570; 15576; 15568; 15577; 15567; 15572; 15578; 15575; 15574; 15573; 15566; 15571; 15569; 9563; 9560; 16167; 16172; 16174; 16171; 16164; 16166; 16176; 16173; 16168; 16177; 16165; 16175; 9561; 9567; 9565; 16159; 9566; 9562; 16160; 16162; 16161; 16169; 16170; 9564; 9559; 16163; 16742; 9862; 16733; 9863; 9866; 16738; 16735; 9865; 16739; 16740; 16734; 16743; 16736; 16741; 9864; 9861; 16737; 17206; 10158; 10156; 10159; 10157; 17205; 17202; 17201; 17204; 17203; 17589; 10329; 17580; 17579; 10324; 17585; 17584; 17576; 17587; 17581; 10328; 17578; 17586; 17577; 10325; 10327; 17582; 10326; 17583];
  [17588; 17916; 10486; 17913; 17917; 10483; 17915; 10488; 10485; 17914; 10487; 17918; 10482; 10609; 10611; 18174; 10610; 18172; 10484; 18173; 10608; 10679; 10681; 18391; 10680; 18390; 18559; 10751; 18558; 10752; 18556; 18555; 18560; 18561; 18689; 18557; 18783; 18780; 18781; 18782; 10861; 18857; 18856; 18855; 18888; 18932; 18913; 10879; 6198; 7411; 8787; 9568; 16744; 10330; 17919; 18914; 6199; 6577; 6965; 6964; 7414; 13008; 7412; 13009; 7413; 13627; 13623; 7895; 13626; 13625; 13624; 7896; 13628; 13629; 14290; 14288; 14292; 14293; 14299; 14295; 14297; 14289; 14284; 14296; 14298; 14291; 14294; 14285; 8355; 14287; 14286; 8354; 8356; 8790; 14968; 14970; 14969; 14974; 8788; 14971];
  [14967; 14972; 14973; 8789; 8791; 14975; 15582; 15581; 15579; 15580; 9187; 9189; 9186; 9188; 16184; 16185; 16180; 16181; 9570; 9575; 9569; 9576; 9571; 16182; 16183; 16179; 9577; 9573; 9572; 9574; 16178; 16746; 9868; 16748; 9870; 16751; 16747; 16745; 16750; 9869; 16749; 9867; 10161; 10164; 17208; 10162; 17207; 10160; 10163; 17590; 17591; 17592; 10331; 17593; 10332; 10490; 17922; 17923; 17921; 17920; 17924; 10489; 18178; 18176; 18177; 18179; 18175; 18180; 18393; 18394; 18392; 10682; 18562; 10753; 18563; 18691; 18690; 6200; 8357; 8792; 9190; 9872; 9871; 10491; 10579; 10683; 6201; 7415; 8793; 17925; 10949; 19762; 11686; 6202; 6205; 6204; 6203; 11685; 12039; 12041];
  [6578; 6580; 12038; 12040; 6579; 12043; 12042; 12044; 12487; 12485; 6968; 12484; 6973; 6970; 6967; 6974; 6969; 6972; 6971; 12486; 6966; 7421; 13011; 13017; 7418; 7425; 7420; 13014; 13016; 7423; 13010; 13013; 7419; 7416; 13012; 7422; 13015; 7424; 7417; 13631; 13634; 7898; 7908; 7904; 13632; 7912; 7905; 7910; 7900; 7897; 7899; 7911; 13633; 7903; 7906; 7902; 7907; 13635; 7909; 7901; 13630; 14300; 8358; 14302; 8360; 8362; 14301; 8359; 8363; 8361; 8799; 14980; 8807; 14977; 8808; 8797; 14978; 8802; 14979; 8795; 8794; 8805; 8804; 8803; 8801; 8806; 14976; 8796; 8798; 8800; 9192; 9195; 9199; 9193; 9198; 9196; 9191; 9197; 9194; 16189];
  [9580; 9578; 16190; 9581; 9579; 16188; 16187; 9876; 16186; 9874; 9873; 16752; 9582; 9875; 16753; 9878; 16754; 9877; 10166; 17210; 10165; 10170; 10168; 10169; 10334; 10167; 17209; 16755; 10333; 10335; 10492; 10493; 18181; 10800; 10799; 6207; 11482; 7426; 11479; 11480; 11478; 11481; 11690; 11687; 11692; 11688; 6208; 6211; 11689; 6210; 11691; 6209; 12047; 12049; 6583; 12045; 12048; 12046; 6581; 6584; 6582; 12489; 12493; 12490; 6977; 6978; 12492; 12494; 12496; 6975; 12495; 6976; 13642; 12491; 13018; 13027; 13025; 13020; 13021; 13026; 13028; 7428; 13023; 13019; 7427; 7429; 13022; 13029; 13024; 7913; 13645; 13637; 13643; 13644; 7914; 13636; 13638; 12488; 13640; 13641];
  [13639; 8365; 14309; 16756; 14310; 14307; 7915; 8367; 14306; 14312; 14311; 8364; 14315; 14305; 14314; 14303; 14313; 14308; 8366; 14987; 14982; 14988; 14983; 14981; 14984; 8809; 14986; 14985; 8810; 9201; 9200; 15589; 15592; 15584; 15588; 9202; 15587; 15585; 15591; 15586; 15583; 15590; 16196; 9585; 17594; 16193; 16194; 16192; 14304; 9584; 16197; 16191; 9583; 9586; 16195; 16757; 9879; 16758; 16759; 17211; 10171; 17595; 17596; 17597; 17927; 17926; 18183; 18182; 18396; 18397; 18395; 18564; 10754; 6212; 6980; 6979; 7432; 7431; 13031; 13032; 13030; 7430; 13649; 13650; 13646; 7916; 13647; 13648; 14318; 14320; 14316; 14319; 8368; 14317; 8369; 14495; 8813; 8812; 8811; 14989];
  [14990; 15594; 15596; 9206; 9203; 9205; 9204; 15595; 15593; 16204; 16201; 16202; 9590; 16203; 16198; 16199; 9587; 9588; 16200; 9589; 16763; 16764; 16761; 16762; 9880; 16760; 17215; 17212; 17214; 10174; 17218; 10173; 17216; 17219; 17217; 17213; 10172; 17599; 17600; 17598; 17602; 10336; 10337; 17929; 10495; 17601; 17928; 10494; 18186; 18187; 10612; 18185; 18184; 18398; 10684; 18692; 18785; 18784; 10836; 10862; 18786; 18889; 10880; 6213; 6585; 8814; 10613; 6214; 6981; 7917; 8370; 10338; 6586; 12498; 12497; 13033; 19341; 7435; 7433; 7437; 13035; 7436; 7434; 13034; 7920; 13656; 7919; 7921; 13661; 7923; 13658; 13659; 13651; 7922; 13662; 13653; 13654; 13652; 7918; 13660];
  [13655; 13657; 14332; 14331; 14329; 14321; 14336; 14324; 14334; 14341; 14333; 8378; 8374; 14322; 14328; 8376; 14327; 8377; 8379; 14330; 8371; 8372; 14342; 14340; 14339; 14325; 14337; 8375; 8373; 14338; 14323; 14326; 14335; 15631; 15000; 14993; 15012; 15021; 14996; 8825; 15009; 8815; 8817; 8829; 14994; 19463; 8818; 8820; 8830; 8819; 8828; 15002; 14991; 8826; 15001; 8822; 15019; 8827; 15017; 15005; 15015; 8824; 14992; 15018; 15013; 15020; 8816; 8831; 8821; 14998; 15006; 15010; 15014; 8823; 14997; 14995; 15007; 15004; 15003; 15008; 15011; 15016; 15599; 9207; 15609; 15601; 9212; 9216; 15618; 15626; 15611; 9208; 15615; 14999; 9209; 15622; 15627; 15619; 15621; 15630];
  [15623; 15605; 15614; 9217; 9213; 15603; 15616; 9211; 15610; 9210; 15624; 15607; 15600; 9214; 15629; 15602; 15620; 15617; 15612; 15598; 15597; 15606; 15625; 9215; 15628; 15604; 15608; 9595; 9603; 9598; 16237; 16234; 16210; 9593; 18957; 9592; 9599; 16208; 9597; 16220; 16206; 16207; 9591; 16236; 9601; 16223; 16228; 16222; 16782; 16218; 16226; 16224; 16211; 16205; 16232; 9600; 16233; 16227; 16216; 16214; 16209; 18998; 16217; 16230; 16213; 16229; 16235; 9596; 16225; 16231; 16221; 16215; 9594; 15613; 16219; 9602; 16212; 16788; 9883; 16787; 16784; 16803; 9887; 16800; 16792; 16802; 16777; 16790; 9889; 16769; 16767; 16801; 16799; 16798; 16781; 16780; 16770; 9891; 16776; 16786];
  [16797; 9894; 16804; 10182; 9896; 9890; 16774; 16783; 16766; 16768; 9881; 9893; 9886; 16775; 16791; 16785; 9892; 16765; 10177; 16793; 16796; 9888; 16779; 9895; 9885; 9884; 16789; 16795; 9882; 16772; 16794; 16773; 19332; 19630; 19008; 16778; 17225; 17230; 10179; 10181; 17236; 10175; 17251; 17242; 17231; 17232; 17241; 10188; 17240; 17224; 17239; 17227; 17252; 10187; 10185; 17228; 17247; 17233; 17246; 19615; 17248; 17223; 10180; 17249; 17237; 10184; 17234; 10186; 17243; 10178; 17229; 17244; 17238; 16771; 17245; 17226; 10183; 17250; 10176; 17221; 19703; 17616; 17609; 10340; 17604; 17619; 17611; 17235; 17621; 17605; 10339; 17615; 10341; 10349; 10347; 17617; 10348; 17607; 17608; 17613];
  [17618; 17220; 10342; 17626; 17623; 17627; 17614; 17610; 17624; 17940; 17612; 10345; 10344; 17222; 10346; 17620; 17622; 10343; 17625; 17603; 17606; 17949; 17933; 10499; 17947; 17931; 10500; 17942; 17938; 10505; 17948; 17932; 17935; 10497; 17950; 19211; 17943; 17946; 10503; 10508; 10506; 17939; 17934; 10501; 10502; 17930; 10498; 10496; 10504; 17945; 10507; 17941; 17951; 10509; 17937; 17944; 19573; 19683; 18200; 18214; 18202; 18209; 17936; 18207; 18190; 18212; 10616; 18194; 18211; 18201; 10615; 18216; 18203; 18208; 18210; 18188; 18213; 18199; 18204; 18192; 18196; 18215; 18206; 18189; 18193; 18195; 18205; 10614; 18198; 19316; 18191; 18197; 18402; 18407; 10691; 18409; 10685; 18405; 18411; 10690];
  [10686; 10687; 18401; 18408; 10689; 18406; 10688; 18400; 18404; 18403; 18399; 18410; 19625; 19628; 10755; 18571; 18574; 18570; 18572; 18573; 18567; 18568; 18565; 18569; 18566; 10756; 10757; 18694; 18696; 18695; 18697; 10802; 18693; 10801; 10803; 18788; 18789; 10837; 18787; 18859; 18858; 18860; 10864; 18861; 10863; 18862; 18890; 18893; 18892; 10873; 18891; 19406; 10883; 10881; 10882; 10888; 18934; 18935; 18933; 18943; 6587; 13663; 14343; 16238; 17952; 6588; 6982; 7438; 13664; 13665; 7924; 8382; 14345; 14344; 8386; 8381; 14346; 8383; 8385; 8384; 8380; 8832; 15025; 15023; 15024; 15022; 9218; 9221; 9223; 9222; 9219; 9220; 16240; 16239; 9604; 16241; 16242; 9605; 16812; 16810];
  [17258; 16808; 16809; 9897; 16805; 16813; 16807; 16811; 17254; 17256; 17257; 10193; 17253; 10192; 17255; 10189; 10190; 10191; 16806; 10352; 17630; 17628; 17629; 10350; 10353; 10351; 17953; 17954; 10510; 18217; 18219; 18218; 10617; 10692; 18414; 18413; 18412; 6589; 11376; 11485; 5944; 11483; 11486; 11484; 11694; 6218; 6219; 11696; 6216; 11695; 11693; 6217; 6215; 12050; 12053; 6592; 12052; 12051; 6591; 6590; 6594; 12054; 6593; 12503; 6984; 6985; 6986; 12504; 12500; 6983; 12501; 12502; 12499; 7445; 7442; 13036; 7443; 7446; 13037; 7441; 7439; 7440; 7444; 7925; 13668; 7933; 13667; 13670; 7929; 13669; 8394; 7927; 7930; 7926; 7931; 7932; 7928; 13666; 8390; 14348];
  [14352; 14351; 8395; 8391; 8392; 14347; 14349; 14350; 8387; 8389; 8393; 8388; 15028; 15026; 15027; 8834; 8835; 15029; 8833; 9224; 9226; 9225; 15632; 15633; 16244; 16243; 19755; 9898; 9899; 16814; 9900; 17261; 17259; 17260; 10194; 17631; 10511; 10950; 10195; 6595; 7447; 13038; 13671; 7934; 8396; 14353; 14355; 8398; 8397; 8399; 8400; 14354; 8838; 8839; 8837; 9227; 8836; 15030; 9228; 16245; 16815; 9901; 10196; 17632; 17636; 10356; 17633; 10357; 10355; 17637; 10358; 17635; 17955; 10354; 10512; 18790; 6596; 7936; 7935; 8401; 14357; 14356; 8402; 15034; 8843; 8840; 15033; 8842; 15031; 8841; 15032; 15634; 9229; 16248; 9606; 16246; 9607; 9608; 16247; 9609];
  [16816; 9905; 9902; 9907; 16818; 9903; 16817; 9906; 9904; 17264; 17266; 10197; 17265; 10198; 17263; 17262; 17639; 17638; 10359; 17640; 17960; 10514; 17959; 17956; 10513; 17957; 17958; 18220; 18221; 10618; 10695; 18415; 10693; 10694; 18416; 10758; 10759; 18575; 10838; 18792; 10840; 18791; 18793; 10839; 18863; 18915; 6597; 8844; 15635; 16249; 9908; 9909; 6598; 9610; 10515; 6987; 9910; 10804; 6988; 13672; 14358; 14360; 14359; 15038; 15035; 8845; 8846; 15036; 15037; 15637; 15642; 9230; 15636; 15638; 15645; 15640; 15644; 15641; 15639; 15643; 9231; 19178; 16252; 16250; 9612; 9611; 16251; 9613; 16821; 16820; 9911; 16819; 17267; 17269; 17271; 17270; 10199; 17268; 17647; 10360];
  [17645; 17648; 10361; 17643; 17646; 17644; 17641; 10362; 17642; 17961; 17963; 17962; 18222; 18223; 19329; 18417; 10761; 10760; 18698; 18699; 10841; 18794; 10874; 6989; 8403; 15647; 15646; 16254; 16253; 10200; 17273; 17272; 17651; 17649; 17652; 17650; 10516; 17964; 17965; 17966; 18418; 18576; 18795; 6990; 16822; 17274; 6991; 9232; 16823; 10363; 17653; 10517; 18224; 18225; 10696; 18700; 6992; 7939; 7940; 13673; 8404; 8405; 14361; 8406; 8850; 8852; 15040; 15041; 15039; 8847; 8848; 8851; 8849; 19401; 15648; 9233; 9234; 16261; 9616; 16256; 16255; 16260; 9614; 9918; 16257; 16262; 16259; 16258; 9615; 9916; 16825; 9912; 16826; 16824; 9915; 9913; 9917; 9914; 17275; 17280];
  [17276; 17279; 10201; 17070; 17278; 17277; 10366; 10364; 10367; 10365; 17654; 17655; 17656; 10368; 17970; 10519; 17968; 10520; 17967; 17969; 10518; 18229; 18226; 18227; 18228; 18419; 10698; 10697; 18578; 18577; 10762; 19039; 10805; 10842; 10865; 18864; 18916; 18917; 6993; 14362; 15042; 15649; 15650; 9235; 9236; 16263; 9617; 10202; 17657; 10369; 17973; 10521; 17972; 17974; 17971; 18422; 18230; 18231; 10619; 18421; 18420; 18579; 18918; 6994; 6995; 7448; 13039; 13674; 8407; 8410; 8408; 14363; 8412; 8409; 8411; 8854; 15043; 15044; 16265; 8853; 8855; 8856; 15652; 15651; 9237; 9238; 15653; 16264; 9240; 9618; 9239; 9919; 16266; 9620; 9619; 16267; 16270; 16268; 16269; 9621];
  [9924; 9922; 9921; 16828; 9923; 16827; 17281; 16829; 9920; 16830; 17284; 17282; 17283; 17288; 10373; 17287; 17290; 17289; 17286; 17285; 10203; 17660; 17659; 10372; 10370; 10371; 17658; 17977; 10522; 17976; 17975; 10523; 18236; 18235; 18233; 18232; 10621; 10620; 18237; 18580; 10763; 18424; 10699; 18423; 18234; 18581; 10806; 10866; 18865; 18919; 6996; 13675; 17291; 6997; 15655; 15654; 16831; 17293; 17292; 19447; 10374; 17978; 17979; 10622; 18920; 7449; 8414; 8413; 15045; 15047; 8858; 15046; 8857; 8859; 15048; 15657; 15659; 15658; 15661; 9241; 15660; 15656; 15662; 16277; 16280; 16282; 16272; 16276; 16273; 9623; 9626; 9628; 16274; 16275; 9627; 16278; 16281; 16279; 9629; 9625];
  [16271; 9622; 9624; 9926; 16837; 16835; 16834; 16840; 16839; 16838; 16833; 9925; 16832; 16836; 9927; 17296; 17300; 17297; 17299; 17298; 17295; 17301; 17304; 17302; 17303; 10205; 10204; 17294; 17305; 17665; 17668; 17670; 17669; 17663; 17667; 17662; 17664; 10375; 17661; 17666; 17992; 17981; 10524; 10525; 17980; 17985; 17991; 17983; 17990; 17987; 17986; 17989; 17984; 17982; 17988; 18244; 18242; 10623; 18241; 18247; 18245; 10624; 18240; 18238; 18239; 10626; 18243; 10625; 18246; 18425; 18431; 18426; 10703; 18432; 10702; 18430; 18429; 10701; 18428; 10700; 18427; 18587; 18589; 18588; 18585; 10765; 18582; 18586; 18591; 18590; 18583; 18584; 10764; 18701; 10809; 18702; 10807; 10808; 18796; 10843];
  [18894; 10875; 18921; 10876; 18922; 18923; 18937; 18936; 10891; 18947; 7450; 15050; 15049; 9242; 9243; 15663; 16283; 16843; 9630; 9928; 16841; 16844; 9929; 17306; 16842; 17671; 10376; 17993; 18250; 18248; 18249; 18433; 10704; 18592; 10812; 10766; 10810; 10811; 18797; 10867; 7451; 17672; 13040; 8860; 15664; 9244; 15665; 16285; 16284; 9931; 9631; 9632; 16288; 16287; 16286; 16845; 16848; 16847; 16846; 9930; 17310; 17308; 17307; 17309; 10377; 17674; 17675; 10378; 17673; 17995; 17994; 17997; 10526; 17996; 18251; 18253; 18252; 18434; 18437; 18435; 18436; 18593; 10767; 18703; 18704; 18705; 10844; 10868; 18924; 7452; 9633; 9932; 17676; 18594; 18938; 13041; 10892; 7453; 16849; 17677];
  [17998; 18438; 18595; 7454; 15666; 15667; 9245; 9246; 16290; 9635; 9634; 16289; 17311; 17678; 17680; 17679; 10381; 10380; 10379; 10706; 18439; 10705; 18597; 18596; 10845; 18798; 7941; 15051; 15670; 15668; 15669; 16299; 16294; 16291; 16298; 16300; 9637; 16297; 16293; 16292; 16296; 16295; 9636; 16860; 16855; 16853; 16862; 16854; 16850; 16856; 19535; 16851; 17320; 16852; 16863; 16859; 9933; 16858; 16857; 16861; 17312; 17315; 17314; 17322; 17317; 17321; 17319; 17318; 17316; 17313; 10208; 10207; 10209; 10206; 17323; 17686; 17689; 17687; 17691; 17692; 17684; 10386; 17685; 17683; 17690; 17682; 17681; 10385; 10383; 10382; 17688; 18007; 18013; 10529; 18008; 18011; 18015; 10530; 18010; 18002];
  [18001; 18014; 18005; 18003; 18012; 18004; 10528; 10527; 17999; 18000; 18009; 18006; 18256; 18259; 10384; 18257; 18263; 18261; 18255; 18266; 18254; 10628; 18262; 18258; 10627; 18265; 18264; 18442; 18441; 18448; 18444; 18447; 10708; 18445; 18446; 18440; 18443; 10707; 10769; 18608; 18603; 18607; 18610; 18606; 18602; 10771; 18605; 18609; 10770; 18600; 18260; 18604; 18601; 18598; 18599; 10768; 18709; 18711; 18714; 18710; 18715; 18708; 18706; 10813; 18712; 10815; 10814; 18707; 18713; 18803; 10846; 18804; 18802; 18799; 18801; 18800; 18866; 18868; 18867; 18897; 18896; 18895; 18898; 10884; 10885; 18944; 18948; 7942; 14364; 15054; 8861; 15052; 15053; 15671; 15672; 9249; 9247; 15673; 9248; 16305];
  [16308; 16302; 16309; 16301; 16303; 16304; 16307; 9640; 16312; 16311; 9638; 16306; 16310; 9639; 16873; 9938; 16868; 9934; 16865; 16871; 16874; 9939; 16870; 16867; 16875; 16866; 16872; 9935; 16864; 9936; 9937; 16869; 17341; 17328; 17329; 17332; 17330; 17324; 19060; 17327; 17337; 17331; 10210; 17339; 17336; 10211; 17338; 17325; 17334; 17335; 17333; 17696; 17698; 17701; 17695; 10387; 17703; 17694; 17704; 17700; 17702; 17706; 17699; 17707; 17697; 17693; 10388; 17705; 10389; 10532; 17326; 18041; 18032; 10534; 18028; 10535; 18037; 18031; 18021; 10533; 18034; 18029; 18030; 18016; 18023; 18038; 18035; 18027; 18039; 18022; 18017; 18036; 18019; 18033; 18024; 18040; 18020; 10531; 18018; 18025];
  [18026; 18273; 18271; 18276; 18288; 18279; 18272; 18268; 18281; 18274; 18277; 18270; 18284; 18267; 18275; 18280; 18282; 18285; 18269; 18289; 18290; 18283; 18287; 18278; 18464; 18467; 10709; 18466; 18471; 18469; 10710; 18460; 18450; 18449; 10712; 18462; 18463; 18459; 18451; 18456; 18286; 18452; 10711; 18458; 18457; 18453; 18465; 18454; 18615; 18468; 18470; 18461; 18455; 18616; 18618; 18612; 10772; 18625; 18623; 10773; 18622; 18621; 18614; 18611; 18617; 18626; 18613; 18619; 18724; 18729; 18719; 18722; 10816; 18726; 18733; 18620; 18720; 18730; 18734; 18725; 18718; 18728; 18727; 18732; 18731; 18624; 18723; 18717; 18721; 10847; 10848; 18716; 18815; 18806; 18814; 18811; 18812; 18805; 18808; 18816];
  [18810; 18809; 18807; 18813; 18869; 18870; 18872; 18871; 18874; 18873; 18900; 18899; 18925; 18926; 18939; 10889; 10893; 18949; 10894; 7943; 10629; 18472; 10849; 10850; 7944; 15055; 8862; 16313; 16877; 16878; 16876; 17343; 17342; 10212; 17709; 17344; 17708; 18043; 10536; 10538; 18042; 10537; 18291; 18293; 18292; 18473; 10713; 10817; 18817; 18875; 18952; 7945; 15674; 9641; 16880; 16879; 17345; 10539; 10630; 18627; 18945; 7946; 9250; 9642; 18044; 18735; 8415; 17346; 10869; 8416; 9643; 10213; 18736; 8417; 16314; 9941; 16881; 16882; 9940; 17347; 10217; 10215; 10216; 10214; 17710; 10390; 18295; 18294; 18297; 18296; 10631; 18474; 18476; 18475; 10714; 18628; 18737; 18738; 10818; 18876];
  [18901; 10886; 14365; 16883; 17348; 18045; 15056; 17349; 17712; 17711; 18739; 10851; 18877; 18902; 8863; 16315; 16316; 16884; 8864; 10391; 17713; 18478; 10715; 18479; 18477; 18740; 18818; 8865; 17352; 17351; 17350; 17714; 17718; 17717; 17716; 17715; 10392; 18046; 18299; 10632; 18298; 18480; 18631; 18630; 10774; 18629; 18743; 18742; 18741; 9251; 16885; 10218; 18047; 18048; 18632; 18744; 18819; 18878; 18927; 18954; 9252; 10219; 17719; 18049; 18481; 18745; 9645; 17353; 17720; 18050; 18051; 18052; 18304; 18300; 10716; 18303; 18302; 10633; 18301; 10635; 10634; 18483; 18482; 10717; 10718; 10776; 18633; 10775; 18748; 18749; 18747; 18746; 10853; 18820; 18821; 18822; 10852; 18879; 18882; 18881];
  [18880; 18953; 9942; 10399; 18305; 18484; 10777; 18634; 18955; 9943; 17354; 18635; 18903; 11210; 11212; 11314; 14598; 5034; 5047; 5049; 5051; 5055; 5056; 5059; 5060; 5063; 5064; 5067; 5068; 5071; 5072; 5075; 5076; 5079; 5080; 5083; 5084; 5124; 5125; 5128; 5129; 5126; 5127; 5052; 5037; 5038; 5039; 5041; 5042; 5043; 5044; 5085; 5086; 5087; 5088; 5089; 5090; 5130; 5131; 5132; 5148; 5149; 5150; 5151; 5152; 5183; 5193; 5194; 5195; 5033; 11257; 5099; 5184; 5189; 5100; 11256; 5053; 5054; 5101; 5133; 5025; 5134; 5028; 5180; 5258; 5259; 5260; 5261; 5262; 5263; 5264; 5265; 5266; 5267; 5031; 5030; 5139; 5141; 5140; 5032];
  [5190; 5290; 5291; 5292; 5293; 5294; 5295; 5296; 5297; 5298; 5299; 5300; 5301; 5302; 5303; 5304; 5305; 5306; 5307; 5308; 5309; 5310; 5311; 5312; 5313; 5314; 5315; 10963; 5181; 10964; 5122; 5316; 5317; 5318; 5319; 5320; 5321; 5322; 5323; 5324; 5325; 5326; 5327; 5328; 5329; 5330; 5331; 5332; 5333; 5334; 5335; 5336; 5337; 5338; 5339; 5340; 5341; 5057; 5045; 5058; 5153; 5187; 5188; 11254; 5121; 11255; 5185; 18996; 11207; 11205; 19386; 19318; 19259; 19342; 19017; 19049; 19032; 19029; 19031; 19510; 19488; 19034; 19043; 18997; 19051; 19264; 19056; 19670; 18999; 19370; 19503; 19093; 19132; 19097; 19047; 19653; 19137; 19302; 19534; 19153];
  [19223; 19145; 19435; 19151; 19168; 19205; 19185; 19019; 19322; 19749; 19396; 19194; 19196; 19570; 19113; 19114; 19217; 19220; 19250; 19746; 19233; 19658; 19105; 19150; 19099; 19388; 19307; 19229; 19226; 19228; 19397; 19232; 19423; 19346; 19693; 19163; 19248; 19511; 19053; 19695; 19009; 19262; 19700; 19269; 19273; 19281; 19735; 19282; 19440; 19286; 19338; 19292; 19048; 19493; 19293; 19325; 19327; 19519; 19537; 19021; 19027; 19050; 19246; 19766; 19340; 19155; 19351; 19507; 19374; 19673; 19381; 19446; 19380; 19135; 19390; 19400; 19639; 19564; 19417; 19432; 19433; 19443; 19429; 19430; 19536; 19441; 19052; 19171; 19742; 19045; 19465; 19427; 19468; 19474; 19025; 19479; 19492; 19495; 19073; 19453];
  [19509; 19514; 19057; 19011; 19531; 19525; 19527; 19558; 19568; 19516; 19092; 19560; 19587; 19373; 19000; 19134; 19094; 19586; 19585; 19164; 19571; 19548; 19402; 19583; 19588; 19592; 19581; 19584; 19590; 19591; 19688; 19528; 19187; 19457; 19657; 19606; 19210; 19616; 19197; 19613; 19449; 19166; 19618; 19301; 19645; 19520; 19530; 19291; 19529; 19015; 19419; 19006; 19634; 19547; 19357; 19663; 19358; 19042; 19239; 19662; 19392; 19664; 19750; 19450; 19620; 19413; 19659; 19668; 19619; 19412; 19689; 19687; 19066; 19026; 19199; 19710; 19708; 19733; 19734; 19437; 19740; 19337; 19444; 19757; 19631; 19403; 19122; 19771; 19263; 19765; 19593; 19721; 19324; 19726; 19725; 19654; 19087; 19274; 19521; 19144];
  [19018; 19192; 19224; 19540; 19023; 19225; 19466; 19541; 19230; 19542; 19235; 19330; 19549; 19367; 19551; 19731; 19245; 19339; 19777; 11213; 19761; 19256; 19359; 19024; 19773; 19310; 19442; 19110; 19648; 19646; 19744; 19745; 19016; 19154; 19007; 19343; 19333; 19483; 19117; 19089; 19471; 19556; 19764; 19183; 19690; 19376; 19622; 19692; 19702; 19675; 19699; 19458; 19780; 19578; 19500; 19377; 19209; 19319; 19366]].
