(** xcore/bip39/words: the three word lists, as UTF-8 bytes. *)
From Verif Require Import GoBase.
(** words/english.go:9. *)
Definition English : list bytes := map str_bytes [
"abandon"%string; "ability"%string; "able"%string; "about"%string; "above"%string; "absent"%string; "absorb"%string; "abstract"%string; "absurd"%string; "abuse"%string; "access"%string; "accident"%string; "account"%string; "accuse"%string; "achieve"%string; "acid"%string;
"acoustic"%string; "acquire"%string; "across"%string; "act"%string; "action"%string; "actor"%string; "actress"%string; "actual"%string; "adapt"%string; "add"%string; "addict"%string; "address"%string; "adjust"%string; "admit"%string; "adult"%string; "advance"%string;
"advice"%string; "aerobic"%string; "affair"%string; "afford"%string; "afraid"%string; "again"%string; "age"%string; "agent"%string; "agree"%string; "ahead"%string; "aim"%string; "air"%string; "airport"%string; "aisle"%string; "alarm"%string; "album"%string;
"alcohol"%string; "alert"%string; "alien"%string; "all"%string; "alley"%string; "allow"%string; "almost"%string; "alone"%string; "alpha"%string; "already"%string; "also"%string; "alter"%string; "always"%string; "amateur"%string; "amazing"%string; "among"%string;
"amount"%string; "amused"%string; "analyst"%string; "anchor"%string; "ancient"%string; "anger"%string; "angle"%string; "angry"%string; "animal"%string; "ankle"%string; "announce"%string; "annual"%string; "another"%string; "answer"%string; "antenna"%string; "antique"%string;
"anxiety"%string; "any"%string; "apart"%string; "apology"%string; "appear"%string; "apple"%string; "approve"%string; "april"%string; "arch"%string; "arctic"%string; "area"%string; "arena"%string; "argue"%string; "arm"%string; "armed"%string; "armor"%string;
"army"%string; "around"%string; "arrange"%string; "arrest"%string; "arrive"%string; "arrow"%string; "art"%string; "artefact"%string; "artist"%string; "artwork"%string; "ask"%string; "aspect"%string; "assault"%string; "asset"%string; "assist"%string; "assume"%string;
"asthma"%string; "athlete"%string; "atom"%string; "attack"%string; "attend"%string; "attitude"%string; "attract"%string; "auction"%string; "audit"%string; "august"%string; "aunt"%string; "author"%string; "auto"%string; "autumn"%string; "average"%string; "avocado"%string;
"avoid"%string; "awake"%string; "aware"%string; "away"%string; "awesome"%string; "awful"%string; "awkward"%string; "axis"%string; "baby"%string; "bachelor"%string; "bacon"%string; "badge"%string; "bag"%string; "balance"%string; "balcony"%string; "ball"%string;
"bamboo"%string; "banana"%string; "banner"%string; "bar"%string; "barely"%string; "bargain"%string; "barrel"%string; "base"%string; "basic"%string; "basket"%string; "battle"%string; "beach"%string; "bean"%string; "beauty"%string; "because"%string; "become"%string;
"beef"%string; "before"%string; "begin"%string; "behave"%string; "behind"%string; "believe"%string; "below"%string; "belt"%string; "bench"%string; "benefit"%string; "best"%string; "betray"%string; "better"%string; "between"%string; "beyond"%string; "bicycle"%string;
"bid"%string; "bike"%string; "bind"%string; "biology"%string; "bird"%string; "birth"%string; "bitter"%string; "black"%string; "blade"%string; "blame"%string; "blanket"%string; "blast"%string; "bleak"%string; "bless"%string; "blind"%string; "blood"%string;
"blossom"%string; "blouse"%string; "blue"%string; "blur"%string; "blush"%string; "board"%string; "boat"%string; "body"%string; "boil"%string; "bomb"%string; "bone"%string; "bonus"%string; "book"%string; "boost"%string; "border"%string; "boring"%string;
"borrow"%string; "boss"%string; "bottom"%string; "bounce"%string; "box"%string; "boy"%string; "bracket"%string; "brain"%string; "brand"%string; "brass"%string; "brave"%string; "bread"%string; "breeze"%string; "brick"%string; "bridge"%string; "brief"%string;
"bright"%string; "bring"%string; "brisk"%string; "broccoli"%string; "broken"%string; "bronze"%string; "broom"%string; "brother"%string; "brown"%string; "brush"%string; "bubble"%string; "buddy"%string; "budget"%string; "buffalo"%string; "build"%string; "bulb"%string;
"bulk"%string; "bullet"%string; "bundle"%string; "bunker"%string; "burden"%string; "burger"%string; "burst"%string; "bus"%string; "business"%string; "busy"%string; "butter"%string; "buyer"%string; "buzz"%string; "cabbage"%string; "cabin"%string; "cable"%string;
"cactus"%string; "cage"%string; "cake"%string; "call"%string; "calm"%string; "camera"%string; "camp"%string; "can"%string; "canal"%string; "cancel"%string; "candy"%string; "cannon"%string; "canoe"%string; "canvas"%string; "canyon"%string; "capable"%string;
"capital"%string; "captain"%string; "car"%string; "carbon"%string; "card"%string; "cargo"%string; "carpet"%string; "carry"%string; "cart"%string; "case"%string; "cash"%string; "casino"%string; "castle"%string; "casual"%string; "cat"%string; "catalog"%string;
"catch"%string; "category"%string; "cattle"%string; "caught"%string; "cause"%string; "caution"%string; "cave"%string; "ceiling"%string; "celery"%string; "cement"%string; "census"%string; "century"%string; "cereal"%string; "certain"%string; "chair"%string; "chalk"%string;
"champion"%string; "change"%string; "chaos"%string; "chapter"%string; "charge"%string; "chase"%string; "chat"%string; "cheap"%string; "check"%string; "cheese"%string; "chef"%string; "cherry"%string; "chest"%string; "chicken"%string; "chief"%string; "child"%string;
"chimney"%string; "choice"%string; "choose"%string; "chronic"%string; "chuckle"%string; "chunk"%string; "churn"%string; "cigar"%string; "cinnamon"%string; "circle"%string; "citizen"%string; "city"%string; "civil"%string; "claim"%string; "clap"%string; "clarify"%string;
"claw"%string; "clay"%string; "clean"%string; "clerk"%string; "clever"%string; "click"%string; "client"%string; "cliff"%string; "climb"%string; "clinic"%string; "clip"%string; "clock"%string; "clog"%string; "close"%string; "cloth"%string; "cloud"%string;
"clown"%string; "club"%string; "clump"%string; "cluster"%string; "clutch"%string; "coach"%string; "coast"%string; "coconut"%string; "code"%string; "coffee"%string; "coil"%string; "coin"%string; "collect"%string; "color"%string; "column"%string; "combine"%string;
"come"%string; "comfort"%string; "comic"%string; "common"%string; "company"%string; "concert"%string; "conduct"%string; "confirm"%string; "congress"%string; "connect"%string; "consider"%string; "control"%string; "convince"%string; "cook"%string; "cool"%string; "copper"%string;
"copy"%string; "coral"%string; "core"%string; "corn"%string; "correct"%string; "cost"%string; "cotton"%string; "couch"%string; "country"%string; "couple"%string; "course"%string; "cousin"%string; "cover"%string; "coyote"%string; "crack"%string; "cradle"%string;
"craft"%string; "cram"%string; "crane"%string; "crash"%string; "crater"%string; "crawl"%string; "crazy"%string; "cream"%string; "credit"%string; "creek"%string; "crew"%string; "cricket"%string; "crime"%string; "crisp"%string; "critic"%string; "crop"%string;
"cross"%string; "crouch"%string; "crowd"%string; "crucial"%string; "cruel"%string; "cruise"%string; "crumble"%string; "crunch"%string; "crush"%string; "cry"%string; "crystal"%string; "cube"%string; "culture"%string; "cup"%string; "cupboard"%string; "curious"%string;
"current"%string; "curtain"%string; "curve"%string; "cushion"%string; "custom"%string; "cute"%string; "cycle"%string; "dad"%string; "damage"%string; "damp"%string; "dance"%string; "danger"%string; "daring"%string; "dash"%string; "daughter"%string; "dawn"%string;
"day"%string; "deal"%string; "debate"%string; "debris"%string; "decade"%string; "december"%string; "decide"%string; "decline"%string; "decorate"%string; "decrease"%string; "deer"%string; "defense"%string; "define"%string; "defy"%string; "degree"%string; "delay"%string;
"deliver"%string; "demand"%string; "demise"%string; "denial"%string; "dentist"%string; "deny"%string; "depart"%string; "depend"%string; "deposit"%string; "depth"%string; "deputy"%string; "derive"%string; "describe"%string; "desert"%string; "design"%string; "desk"%string;
"despair"%string; "destroy"%string; "detail"%string; "detect"%string; "develop"%string; "device"%string; "devote"%string; "diagram"%string; "dial"%string; "diamond"%string; "diary"%string; "dice"%string; "diesel"%string; "diet"%string; "differ"%string; "digital"%string;
"dignity"%string; "dilemma"%string; "dinner"%string; "dinosaur"%string; "direct"%string; "dirt"%string; "disagree"%string; "discover"%string; "disease"%string; "dish"%string; "dismiss"%string; "disorder"%string; "display"%string; "distance"%string; "divert"%string; "divide"%string;
"divorce"%string; "dizzy"%string; "doctor"%string; "document"%string; "dog"%string; "doll"%string; "dolphin"%string; "domain"%string; "donate"%string; "donkey"%string; "donor"%string; "door"%string; "dose"%string; "double"%string; "dove"%string; "draft"%string;
"dragon"%string; "drama"%string; "drastic"%string; "draw"%string; "dream"%string; "dress"%string; "drift"%string; "drill"%string; "drink"%string; "drip"%string; "drive"%string; "drop"%string; "drum"%string; "dry"%string; "duck"%string; "dumb"%string;
"dune"%string; "during"%string; "dust"%string; "dutch"%string; "duty"%string; "dwarf"%string; "dynamic"%string; "eager"%string; "eagle"%string; "early"%string; "earn"%string; "earth"%string; "easily"%string; "east"%string; "easy"%string; "echo"%string;
"ecology"%string; "economy"%string; "edge"%string; "edit"%string; "educate"%string; "effort"%string; "egg"%string; "eight"%string; "either"%string; "elbow"%string; "elder"%string; "electric"%string; "elegant"%string; "element"%string; "elephant"%string; "elevator"%string;
"elite"%string; "else"%string; "embark"%string; "embody"%string; "embrace"%string; "emerge"%string; "emotion"%string; "employ"%string; "empower"%string; "empty"%string; "enable"%string; "enact"%string; "end"%string; "endless"%string; "endorse"%string; "enemy"%string;
"energy"%string; "enforce"%string; "engage"%string; "engine"%string; "enhance"%string; "enjoy"%string; "enlist"%string; "enough"%string; "enrich"%string; "enroll"%string; "ensure"%string; "enter"%string; "entire"%string; "entry"%string; "envelope"%string; "episode"%string;
"equal"%string; "equip"%string; "era"%string; "erase"%string; "erode"%string; "erosion"%string; "error"%string; "erupt"%string; "escape"%string; "essay"%string; "essence"%string; "estate"%string; "eternal"%string; "ethics"%string; "evidence"%string; "evil"%string;
"evoke"%string; "evolve"%string; "exact"%string; "example"%string; "excess"%string; "exchange"%string; "excite"%string; "exclude"%string; "excuse"%string; "execute"%string; "exercise"%string; "exhaust"%string; "exhibit"%string; "exile"%string; "exist"%string; "exit"%string;
"exotic"%string; "expand"%string; "expect"%string; "expire"%string; "explain"%string; "expose"%string; "express"%string; "extend"%string; "extra"%string; "eye"%string; "eyebrow"%string; "fabric"%string; "face"%string; "faculty"%string; "fade"%string; "faint"%string;
"faith"%string; "fall"%string; "false"%string; "fame"%string; "family"%string; "famous"%string; "fan"%string; "fancy"%string; "fantasy"%string; "farm"%string; "fashion"%string; "fat"%string; "fatal"%string; "father"%string; "fatigue"%string; "fault"%string;
"favorite"%string; "feature"%string; "february"%string; "federal"%string; "fee"%string; "feed"%string; "feel"%string; "female"%string; "fence"%string; "festival"%string; "fetch"%string; "fever"%string; "few"%string; "fiber"%string; "fiction"%string; "field"%string;
"figure"%string; "file"%string; "film"%string; "filter"%string; "final"%string; "find"%string; "fine"%string; "finger"%string; "finish"%string; "fire"%string; "firm"%string; "first"%string; "fiscal"%string; "fish"%string; "fit"%string; "fitness"%string;
"fix"%string; "flag"%string; "flame"%string; "flash"%string; "flat"%string; "flavor"%string; "flee"%string; "flight"%string; "flip"%string; "float"%string; "flock"%string; "floor"%string; "flower"%string; "fluid"%string; "flush"%string; "fly"%string;
"foam"%string; "focus"%string; "fog"%string; "foil"%string; "fold"%string; "follow"%string; "food"%string; "foot"%string; "force"%string; "forest"%string; "forget"%string; "fork"%string; "fortune"%string; "forum"%string; "forward"%string; "fossil"%string;
"foster"%string; "found"%string; "fox"%string; "fragile"%string; "frame"%string; "frequent"%string; "fresh"%string; "friend"%string; "fringe"%string; "frog"%string; "front"%string; "frost"%string; "frown"%string; "frozen"%string; "fruit"%string; "fuel"%string;
"fun"%string; "funny"%string; "furnace"%string; "fury"%string; "future"%string; "gadget"%string; "gain"%string; "galaxy"%string; "gallery"%string; "game"%string; "gap"%string; "garage"%string; "garbage"%string; "garden"%string; "garlic"%string; "garment"%string;
"gas"%string; "gasp"%string; "gate"%string; "gather"%string; "gauge"%string; "gaze"%string; "general"%string; "genius"%string; "genre"%string; "gentle"%string; "genuine"%string; "gesture"%string; "ghost"%string; "giant"%string; "gift"%string; "giggle"%string;
"ginger"%string; "giraffe"%string; "girl"%string; "give"%string; "glad"%string; "glance"%string; "glare"%string; "glass"%string; "glide"%string; "glimpse"%string; "globe"%string; "gloom"%string; "glory"%string; "glove"%string; "glow"%string; "glue"%string;
"goat"%string; "goddess"%string; "gold"%string; "good"%string; "goose"%string; "gorilla"%string; "gospel"%string; "gossip"%string; "govern"%string; "gown"%string; "grab"%string; "grace"%string; "grain"%string; "grant"%string; "grape"%string; "grass"%string;
"gravity"%string; "great"%string; "green"%string; "grid"%string; "grief"%string; "grit"%string; "grocery"%string; "group"%string; "grow"%string; "grunt"%string; "guard"%string; "guess"%string; "guide"%string; "guilt"%string; "guitar"%string; "gun"%string;
"gym"%string; "habit"%string; "hair"%string; "half"%string; "hammer"%string; "hamster"%string; "hand"%string; "happy"%string; "harbor"%string; "hard"%string; "harsh"%string; "harvest"%string; "hat"%string; "have"%string; "hawk"%string; "hazard"%string;
"head"%string; "health"%string; "heart"%string; "heavy"%string; "hedgehog"%string; "height"%string; "hello"%string; "helmet"%string; "help"%string; "hen"%string; "hero"%string; "hidden"%string; "high"%string; "hill"%string; "hint"%string; "hip"%string;
"hire"%string; "history"%string; "hobby"%string; "hockey"%string; "hold"%string; "hole"%string; "holiday"%string; "hollow"%string; "home"%string; "honey"%string; "hood"%string; "hope"%string; "horn"%string; "horror"%string; "horse"%string; "hospital"%string;
"host"%string; "hotel"%string; "hour"%string; "hover"%string; "hub"%string; "huge"%string; "human"%string; "humble"%string; "humor"%string; "hundred"%string; "hungry"%string; "hunt"%string; "hurdle"%string; "hurry"%string; "hurt"%string; "husband"%string;
"hybrid"%string; "ice"%string; "icon"%string; "idea"%string; "identify"%string; "idle"%string; "ignore"%string; "ill"%string; "illegal"%string; "illness"%string; "image"%string; "imitate"%string; "immense"%string; "immune"%string; "impact"%string; "impose"%string;
"improve"%string; "impulse"%string; "inch"%string; "include"%string; "income"%string; "increase"%string; "index"%string; "indicate"%string; "indoor"%string; "industry"%string; "infant"%string; "inflict"%string; "inform"%string; "inhale"%string; "inherit"%string; "initial"%string;
"inject"%string; "injury"%string; "inmate"%string; "inner"%string; "innocent"%string; "input"%string; "inquiry"%string; "insane"%string; "insect"%string; "inside"%string; "inspire"%string; "install"%string; "intact"%string; "interest"%string; "into"%string; "invest"%string;
"invite"%string; "involve"%string; "iron"%string; "island"%string; "isolate"%string; "issue"%string; "item"%string; "ivory"%string; "jacket"%string; "jaguar"%string; "jar"%string; "jazz"%string; "jealous"%string; "jeans"%string; "jelly"%string; "jewel"%string;
"job"%string; "join"%string; "joke"%string; "journey"%string; "joy"%string; "judge"%string; "juice"%string; "jump"%string; "jungle"%string; "junior"%string; "junk"%string; "just"%string; "kangaroo"%string; "keen"%string; "keep"%string; "ketchup"%string;
"key"%string; "kick"%string; "kid"%string; "kidney"%string; "kind"%string; "kingdom"%string; "kiss"%string; "kit"%string; "kitchen"%string; "kite"%string; "kitten"%string; "kiwi"%string; "knee"%string; "knife"%string; "knock"%string; "know"%string;
"lab"%string; "label"%string; "labor"%string; "ladder"%string; "lady"%string; "lake"%string; "lamp"%string; "language"%string; "laptop"%string; "large"%string; "later"%string; "latin"%string; "laugh"%string; "laundry"%string; "lava"%string; "law"%string;
"lawn"%string; "lawsuit"%string; "layer"%string; "lazy"%string; "leader"%string; "leaf"%string; "learn"%string; "leave"%string; "lecture"%string; "left"%string; "leg"%string; "legal"%string; "legend"%string; "leisure"%string; "lemon"%string; "lend"%string;
"length"%string; "lens"%string; "leopard"%string; "lesson"%string; "letter"%string; "level"%string; "liar"%string; "liberty"%string; "library"%string; "license"%string; "life"%string; "lift"%string; "light"%string; "like"%string; "limb"%string; "limit"%string;
"link"%string; "lion"%string; "liquid"%string; "list"%string; "little"%string; "live"%string; "lizard"%string; "load"%string; "loan"%string; "lobster"%string; "local"%string; "lock"%string; "logic"%string; "lonely"%string; "long"%string; "loop"%string;
"lottery"%string; "loud"%string; "lounge"%string; "love"%string; "loyal"%string; "lucky"%string; "luggage"%string; "lumber"%string; "lunar"%string; "lunch"%string; "luxury"%string; "lyrics"%string; "machine"%string; "mad"%string; "magic"%string; "magnet"%string;
"maid"%string; "mail"%string; "main"%string; "major"%string; "make"%string; "mammal"%string; "man"%string; "manage"%string; "mandate"%string; "mango"%string; "mansion"%string; "manual"%string; "maple"%string; "marble"%string; "march"%string; "margin"%string;
"marine"%string; "market"%string; "marriage"%string; "mask"%string; "mass"%string; "master"%string; "match"%string; "material"%string; "math"%string; "matrix"%string; "matter"%string; "maximum"%string; "maze"%string; "meadow"%string; "mean"%string; "measure"%string;
"meat"%string; "mechanic"%string; "medal"%string; "media"%string; "melody"%string; "melt"%string; "member"%string; "memory"%string; "mention"%string; "menu"%string; "mercy"%string; "merge"%string; "merit"%string; "merry"%string; "mesh"%string; "message"%string;
"metal"%string; "method"%string; "middle"%string; "midnight"%string; "milk"%string; "million"%string; "mimic"%string; "mind"%string; "minimum"%string; "minor"%string; "minute"%string; "miracle"%string; "mirror"%string; "misery"%string; "miss"%string; "mistake"%string;
"mix"%string; "mixed"%string; "mixture"%string; "mobile"%string; "model"%string; "modify"%string; "mom"%string; "moment"%string; "monitor"%string; "monkey"%string; "monster"%string; "month"%string; "moon"%string; "moral"%string; "more"%string; "morning"%string;
"mosquito"%string; "mother"%string; "motion"%string; "motor"%string; "mountain"%string; "mouse"%string; "move"%string; "movie"%string; "much"%string; "muffin"%string; "mule"%string; "multiply"%string; "muscle"%string; "museum"%string; "mushroom"%string; "music"%string;
"must"%string; "mutual"%string; "myself"%string; "mystery"%string; "myth"%string; "naive"%string; "name"%string; "napkin"%string; "narrow"%string; "nasty"%string; "nation"%string; "nature"%string; "near"%string; "neck"%string; "need"%string; "negative"%string;
"neglect"%string; "neither"%string; "nephew"%string; "nerve"%string; "nest"%string; "net"%string; "network"%string; "neutral"%string; "never"%string; "news"%string; "next"%string; "nice"%string; "night"%string; "noble"%string; "noise"%string; "nominee"%string;
"noodle"%string; "normal"%string; "north"%string; "nose"%string; "notable"%string; "note"%string; "nothing"%string; "notice"%string; "novel"%string; "now"%string; "nuclear"%string; "number"%string; "nurse"%string; "nut"%string; "oak"%string; "obey"%string;
"object"%string; "oblige"%string; "obscure"%string; "observe"%string; "obtain"%string; "obvious"%string; "occur"%string; "ocean"%string; "october"%string; "odor"%string; "off"%string; "offer"%string; "office"%string; "often"%string; "oil"%string; "okay"%string;
"old"%string; "olive"%string; "olympic"%string; "omit"%string; "once"%string; "one"%string; "onion"%string; "online"%string; "only"%string; "open"%string; "opera"%string; "opinion"%string; "oppose"%string; "option"%string; "orange"%string; "orbit"%string;
"orchard"%string; "order"%string; "ordinary"%string; "organ"%string; "orient"%string; "original"%string; "orphan"%string; "ostrich"%string; "other"%string; "outdoor"%string; "outer"%string; "output"%string; "outside"%string; "oval"%string; "oven"%string; "over"%string;
"own"%string; "owner"%string; "oxygen"%string; "oyster"%string; "ozone"%string; "pact"%string; "paddle"%string; "page"%string; "pair"%string; "palace"%string; "palm"%string; "panda"%string; "panel"%string; "panic"%string; "panther"%string; "paper"%string;
"parade"%string; "parent"%string; "park"%string; "parrot"%string; "party"%string; "pass"%string; "patch"%string; "path"%string; "patient"%string; "patrol"%string; "pattern"%string; "pause"%string; "pave"%string; "payment"%string; "peace"%string; "peanut"%string;
"pear"%string; "peasant"%string; "pelican"%string; "pen"%string; "penalty"%string; "pencil"%string; "people"%string; "pepper"%string; "perfect"%string; "permit"%string; "person"%string; "pet"%string; "phone"%string; "photo"%string; "phrase"%string; "physical"%string;
"piano"%string; "picnic"%string; "picture"%string; "piece"%string; "pig"%string; "pigeon"%string; "pill"%string; "pilot"%string; "pink"%string; "pioneer"%string; "pipe"%string; "pistol"%string; "pitch"%string; "pizza"%string; "place"%string; "planet"%string;
"plastic"%string; "plate"%string; "play"%string; "please"%string; "pledge"%string; "pluck"%string; "plug"%string; "plunge"%string; "poem"%string; "poet"%string; "point"%string; "polar"%string; "pole"%string; "police"%string; "pond"%string; "pony"%string;
"pool"%string; "popular"%string; "portion"%string; "position"%string; "possible"%string; "post"%string; "potato"%string; "pottery"%string; "poverty"%string; "powder"%string; "power"%string; "practice"%string; "praise"%string; "predict"%string; "prefer"%string; "prepare"%string;
"present"%string; "pretty"%string; "prevent"%string; "price"%string; "pride"%string; "primary"%string; "print"%string; "priority"%string; "prison"%string; "private"%string; "prize"%string; "problem"%string; "process"%string; "produce"%string; "profit"%string; "program"%string;
"project"%string; "promote"%string; "proof"%string; "property"%string; "prosper"%string; "protect"%string; "proud"%string; "provide"%string; "public"%string; "pudding"%string; "pull"%string; "pulp"%string; "pulse"%string; "pumpkin"%string; "punch"%string; "pupil"%string;
"puppy"%string; "purchase"%string; "purity"%string; "purpose"%string; "purse"%string; "push"%string; "put"%string; "puzzle"%string; "pyramid"%string; "quality"%string; "quantum"%string; "quarter"%string; "question"%string; "quick"%string; "quit"%string; "quiz"%string;
"quote"%string; "rabbit"%string; "raccoon"%string; "race"%string; "rack"%string; "radar"%string; "radio"%string; "rail"%string; "rain"%string; "raise"%string; "rally"%string; "ramp"%string; "ranch"%string; "random"%string; "range"%string; "rapid"%string;
"rare"%string; "rate"%string; "rather"%string; "raven"%string; "raw"%string; "razor"%string; "ready"%string; "real"%string; "reason"%string; "rebel"%string; "rebuild"%string; "recall"%string; "receive"%string; "recipe"%string; "record"%string; "recycle"%string;
"reduce"%string; "reflect"%string; "reform"%string; "refuse"%string; "region"%string; "regret"%string; "regular"%string; "reject"%string; "relax"%string; "release"%string; "relief"%string; "rely"%string; "remain"%string; "remember"%string; "remind"%string; "remove"%string;
"render"%string; "renew"%string; "rent"%string; "reopen"%string; "repair"%string; "repeat"%string; "replace"%string; "report"%string; "require"%string; "rescue"%string; "resemble"%string; "resist"%string; "resource"%string; "response"%string; "result"%string; "retire"%string;
"retreat"%string; "return"%string; "reunion"%string; "reveal"%string; "review"%string; "reward"%string; "rhythm"%string; "rib"%string; "ribbon"%string; "rice"%string; "rich"%string; "ride"%string; "ridge"%string; "rifle"%string; "right"%string; "rigid"%string;
"ring"%string; "riot"%string; "ripple"%string; "risk"%string; "ritual"%string; "rival"%string; "river"%string; "road"%string; "roast"%string; "robot"%string; "robust"%string; "rocket"%string; "romance"%string; "roof"%string; "rookie"%string; "room"%string;
"rose"%string; "rotate"%string; "rough"%string; "round"%string; "route"%string; "royal"%string; "rubber"%string; "rude"%string; "rug"%string; "rule"%string; "run"%string; "runway"%string; "rural"%string; "sad"%string; "saddle"%string; "sadness"%string;
"safe"%string; "sail"%string; "salad"%string; "salmon"%string; "salon"%string; "salt"%string; "salute"%string; "same"%string; "sample"%string; "sand"%string; "satisfy"%string; "satoshi"%string; "sauce"%string; "sausage"%string; "save"%string; "say"%string;
"scale"%string; "scan"%string; "scare"%string; "scatter"%string; "scene"%string; "scheme"%string; "school"%string; "science"%string; "scissors"%string; "scorpion"%string; "scout"%string; "scrap"%string; "screen"%string; "script"%string; "scrub"%string; "sea"%string;
"search"%string; "season"%string; "seat"%string; "second"%string; "secret"%string; "section"%string; "security"%string; "seed"%string; "seek"%string; "segment"%string; "select"%string; "sell"%string; "seminar"%string; "senior"%string; "sense"%string; "sentence"%string;
"series"%string; "service"%string; "session"%string; "settle"%string; "setup"%string; "seven"%string; "shadow"%string; "shaft"%string; "shallow"%string; "share"%string; "shed"%string; "shell"%string; "sheriff"%string; "shield"%string; "shift"%string; "shine"%string;
"ship"%string; "shiver"%string; "shock"%string; "shoe"%string; "shoot"%string; "shop"%string; "short"%string; "shoulder"%string; "shove"%string; "shrimp"%string; "shrug"%string; "shuffle"%string; "shy"%string; "sibling"%string; "sick"%string; "side"%string;
"siege"%string; "sight"%string; "sign"%string; "silent"%string; "silk"%string; "silly"%string; "silver"%string; "similar"%string; "simple"%string; "since"%string; "sing"%string; "siren"%string; "sister"%string; "situate"%string; "six"%string; "size"%string;
"skate"%string; "sketch"%string; "ski"%string; "skill"%string; "skin"%string; "skirt"%string; "skull"%string; "slab"%string; "slam"%string; "sleep"%string; "slender"%string; "slice"%string; "slide"%string; "slight"%string; "slim"%string; "slogan"%string;
"slot"%string; "slow"%string; "slush"%string; "small"%string; "smart"%string; "smile"%string; "smoke"%string; "smooth"%string; "snack"%string; "snake"%string; "snap"%string; "sniff"%string; "snow"%string; "soap"%string; "soccer"%string; "social"%string;
"sock"%string; "soda"%string; "soft"%string; "solar"%string; "soldier"%string; "solid"%string; "solution"%string; "solve"%string; "someone"%string; "song"%string; "soon"%string; "sorry"%string; "sort"%string; "soul"%string; "sound"%string; "soup"%string;
"source"%string; "south"%string; "space"%string; "spare"%string; "spatial"%string; "spawn"%string; "speak"%string; "special"%string; "speed"%string; "spell"%string; "spend"%string; "sphere"%string; "spice"%string; "spider"%string; "spike"%string; "spin"%string;
"spirit"%string; "split"%string; "spoil"%string; "sponsor"%string; "spoon"%string; "sport"%string; "spot"%string; "spray"%string; "spread"%string; "spring"%string; "spy"%string; "square"%string; "squeeze"%string; "squirrel"%string; "stable"%string; "stadium"%string;
"staff"%string; "stage"%string; "stairs"%string; "stamp"%string; "stand"%string; "start"%string; "state"%string; "stay"%string; "steak"%string; "steel"%string; "stem"%string; "step"%string; "stereo"%string; "stick"%string; "still"%string; "sting"%string;
"stock"%string; "stomach"%string; "stone"%string; "stool"%string; "story"%string; "stove"%string; "strategy"%string; "street"%string; "strike"%string; "strong"%string; "struggle"%string; "student"%string; "stuff"%string; "stumble"%string; "style"%string; "subject"%string;
"submit"%string; "subway"%string; "success"%string; "such"%string; "sudden"%string; "suffer"%string; "sugar"%string; "suggest"%string; "suit"%string; "summer"%string; "sun"%string; "sunny"%string; "sunset"%string; "super"%string; "supply"%string; "supreme"%string;
"sure"%string; "surface"%string; "surge"%string; "surprise"%string; "surround"%string; "survey"%string; "suspect"%string; "sustain"%string; "swallow"%string; "swamp"%string; "swap"%string; "swarm"%string; "swear"%string; "sweet"%string; "swift"%string; "swim"%string;
"swing"%string; "switch"%string; "sword"%string; "symbol"%string; "symptom"%string; "syrup"%string; "system"%string; "table"%string; "tackle"%string; "tag"%string; "tail"%string; "talent"%string; "talk"%string; "tank"%string; "tape"%string; "target"%string;
"task"%string; "taste"%string; "tattoo"%string; "taxi"%string; "teach"%string; "team"%string; "tell"%string; "ten"%string; "tenant"%string; "tennis"%string; "tent"%string; "term"%string; "test"%string; "text"%string; "thank"%string; "that"%string;
"theme"%string; "then"%string; "theory"%string; "there"%string; "they"%string; "thing"%string; "this"%string; "thought"%string; "three"%string; "thrive"%string; "throw"%string; "thumb"%string; "thunder"%string; "ticket"%string; "tide"%string; "tiger"%string;
"tilt"%string; "timber"%string; "time"%string; "tiny"%string; "tip"%string; "tired"%string; "tissue"%string; "title"%string; "toast"%string; "tobacco"%string; "today"%string; "toddler"%string; "toe"%string; "together"%string; "toilet"%string; "token"%string;
"tomato"%string; "tomorrow"%string; "tone"%string; "tongue"%string; "tonight"%string; "tool"%string; "tooth"%string; "top"%string; "topic"%string; "topple"%string; "torch"%string; "tornado"%string; "tortoise"%string; "toss"%string; "total"%string; "tourist"%string;
"toward"%string; "tower"%string; "town"%string; "toy"%string; "track"%string; "trade"%string; "traffic"%string; "tragic"%string; "train"%string; "transfer"%string; "trap"%string; "trash"%string; "travel"%string; "tray"%string; "treat"%string; "tree"%string;
"trend"%string; "trial"%string; "tribe"%string; "trick"%string; "trigger"%string; "trim"%string; "trip"%string; "trophy"%string; "trouble"%string; "truck"%string; "true"%string; "truly"%string; "trumpet"%string; "trust"%string; "truth"%string; "try"%string;
"tube"%string; "tuition"%string; "tumble"%string; "tuna"%string; "tunnel"%string; "turkey"%string; "turn"%string; "turtle"%string; "twelve"%string; "twenty"%string; "twice"%string; "twin"%string; "twist"%string; "two"%string; "type"%string; "typical"%string;
"ugly"%string; "umbrella"%string; "unable"%string; "unaware"%string; "uncle"%string; "uncover"%string; "under"%string; "undo"%string; "unfair"%string; "unfold"%string; "unhappy"%string; "uniform"%string; "unique"%string; "unit"%string; "universe"%string; "unknown"%string;
"unlock"%string; "until"%string; "unusual"%string; "unveil"%string; "update"%string; "upgrade"%string; "uphold"%string; "upon"%string; "upper"%string; "upset"%string; "urban"%string; "urge"%string; "usage"%string; "use"%string; "used"%string; "useful"%string;
"useless"%string; "usual"%string; "utility"%string; "vacant"%string; "vacuum"%string; "vague"%string; "valid"%string; "valley"%string; "valve"%string; "van"%string; "vanish"%string; "vapor"%string; "various"%string; "vast"%string; "vault"%string; "vehicle"%string;
"velvet"%string; "vendor"%string; "venture"%string; "venue"%string; "verb"%string; "verify"%string; "version"%string; "very"%string; "vessel"%string; "veteran"%string; "viable"%string; "vibrant"%string; "vicious"%string; "victory"%string; "video"%string; "view"%string;
"village"%string; "vintage"%string; "violin"%string; "virtual"%string; "virus"%string; "visa"%string; "visit"%string; "visual"%string; "vital"%string; "vivid"%string; "vocal"%string; "voice"%string; "void"%string; "volcano"%string; "volume"%string; "vote"%string;
"voyage"%string; "wage"%string; "wagon"%string; "wait"%string; "walk"%string; "wall"%string; "walnut"%string; "want"%string; "warfare"%string; "warm"%string; "warrior"%string; "wash"%string; "wasp"%string; "waste"%string; "water"%string; "wave"%string;
"way"%string; "wealth"%string; "weapon"%string; "wear"%string; "weasel"%string; "weather"%string; "web"%string; "wedding"%string; "weekend"%string; "weird"%string; "welcome"%string; "west"%string; "wet"%string; "whale"%string; "what"%string; "wheat"%string;
"wheel"%string; "when"%string; "where"%string; "whip"%string; "whisper"%string; "wide"%string; "width"%string; "wife"%string; "wild"%string; "will"%string; "win"%string; "window"%string; "wine"%string; "wing"%string; "wink"%string; "winner"%string;
"winter"%string; "wire"%string; "wisdom"%string; "wise"%string; "wish"%string; "witness"%string; "wolf"%string; "woman"%string; "wonder"%string; "wood"%string; "wool"%string; "word"%string; "work"%string; "world"%string; "worry"%string; "worth"%string;
"wrap"%string; "wreck"%string; "wrestle"%string; "wrist"%string; "write"%string; "wrong"%string; "yard"%string; "year"%string; "yellow"%string; "you"%string; "young"%string; "youth"%string; "zebra"%string; "zero"%string; "zone"%string; "zoo"%string].
(** words/chinese.go:9. *)
Definition Chinese : list bytes := map str_bytes [
"的"%string; "一"%string; "是"%string; "在"%string; "不"%string; "了"%string; "有"%string; "和"%string; "人"%string; "这"%string; "中"%string; "大"%string; "为"%string; "上"%string; "个"%string; "国"%string;
"我"%string; "以"%string; "要"%string; "他"%string; "时"%string; "来"%string; "用"%string; "们"%string; "生"%string; "到"%string; "作"%string; "地"%string; "于"%string; "出"%string; "就"%string; "分"%string;
"对"%string; "成"%string; "会"%string; "可"%string; "主"%string; "发"%string; "年"%string; "动"%string; "同"%string; "工"%string; "也"%string; "能"%string; "下"%string; "过"%string; "子"%string; "说"%string;
"产"%string; "种"%string; "面"%string; "而"%string; "方"%string; "后"%string; "多"%string; "定"%string; "行"%string; "学"%string; "法"%string; "所"%string; "民"%string; "得"%string; "经"%string; "十"%string;
"三"%string; "之"%string; "进"%string; "着"%string; "等"%string; "部"%string; "度"%string; "家"%string; "电"%string; "力"%string; "里"%string; "如"%string; "水"%string; "化"%string; "高"%string; "自"%string;
"二"%string; "理"%string; "起"%string; "小"%string; "物"%string; "现"%string; "实"%string; "加"%string; "量"%string; "都"%string; "两"%string; "体"%string; "制"%string; "机"%string; "当"%string; "使"%string;
"点"%string; "从"%string; "业"%string; "本"%string; "去"%string; "把"%string; "性"%string; "好"%string; "应"%string; "开"%string; "它"%string; "合"%string; "还"%string; "因"%string; "由"%string; "其"%string;
"些"%string; "然"%string; "前"%string; "外"%string; "天"%string; "政"%string; "四"%string; "日"%string; "那"%string; "社"%string; "义"%string; "事"%string; "平"%string; "形"%string; "相"%string; "全"%string;
"表"%string; "间"%string; "样"%string; "与"%string; "关"%string; "各"%string; "重"%string; "新"%string; "线"%string; "内"%string; "数"%string; "正"%string; "心"%string; "反"%string; "你"%string; "明"%string;
"看"%string; "原"%string; "又"%string; "么"%string; "利"%string; "比"%string; "或"%string; "但"%string; "质"%string; "气"%string; "第"%string; "向"%string; "道"%string; "命"%string; "此"%string; "变"%string;
"条"%string; "只"%string; "没"%string; "结"%string; "解"%string; "问"%string; "意"%string; "建"%string; "月"%string; "公"%string; "无"%string; "系"%string; "军"%string; "很"%string; "情"%string; "者"%string;
"最"%string; "立"%string; "代"%string; "想"%string; "已"%string; "通"%string; "并"%string; "提"%string; "直"%string; "题"%string; "党"%string; "程"%string; "展"%string; "五"%string; "果"%string; "料"%string;
"象"%string; "员"%string; "革"%string; "位"%string; "入"%string; "常"%string; "文"%string; "总"%string; "次"%string; "品"%string; "式"%string; "活"%string; "设"%string; "及"%string; "管"%string; "特"%string;
"件"%string; "长"%string; "求"%string; "老"%string; "头"%string; "基"%string; "资"%string; "边"%string; "流"%string; "路"%string; "级"%string; "少"%string; "图"%string; "山"%string; "统"%string; "接"%string;
"知"%string; "较"%string; "将"%string; "组"%string; "见"%string; "计"%string; "别"%string; "她"%string; "手"%string; "角"%string; "期"%string; "根"%string; "论"%string; "运"%string; "农"%string; "指"%string;
"几"%string; "九"%string; "区"%string; "强"%string; "放"%string; "决"%string; "西"%string; "被"%string; "干"%string; "做"%string; "必"%string; "战"%string; "先"%string; "回"%string; "则"%string; "任"%string;
"取"%string; "据"%string; "处"%string; "队"%string; "南"%string; "给"%string; "色"%string; "光"%string; "门"%string; "即"%string; "保"%string; "治"%string; "北"%string; "造"%string; "百"%string; "规"%string;
"热"%string; "领"%string; "七"%string; "海"%string; "口"%string; "东"%string; "导"%string; "器"%string; "压"%string; "志"%string; "世"%string; "金"%string; "增"%string; "争"%string; "济"%string; "阶"%string;
"油"%string; "思"%string; "术"%string; "极"%string; "交"%string; "受"%string; "联"%string; "什"%string; "认"%string; "六"%string; "共"%string; "权"%string; "收"%string; "证"%string; "改"%string; "清"%string;
"美"%string; "再"%string; "采"%string; "转"%string; "更"%string; "单"%string; "风"%string; "切"%string; "打"%string; "白"%string; "教"%string; "速"%string; "花"%string; "带"%string; "安"%string; "场"%string;
"身"%string; "车"%string; "例"%string; "真"%string; "务"%string; "具"%string; "万"%string; "每"%string; "目"%string; "至"%string; "达"%string; "走"%string; "积"%string; "示"%string; "议"%string; "声"%string;
"报"%string; "斗"%string; "完"%string; "类"%string; "八"%string; "离"%string; "华"%string; "名"%string; "确"%string; "才"%string; "科"%string; "张"%string; "信"%string; "马"%string; "节"%string; "话"%string;
"米"%string; "整"%string; "空"%string; "元"%string; "况"%string; "今"%string; "集"%string; "温"%string; "传"%string; "土"%string; "许"%string; "步"%string; "群"%string; "广"%string; "石"%string; "记"%string;
"需"%string; "段"%string; "研"%string; "界"%string; "拉"%string; "林"%string; "律"%string; "叫"%string; "且"%string; "究"%string; "观"%string; "越"%string; "织"%string; "装"%string; "影"%string; "算"%string;
"低"%string; "持"%string; "音"%string; "众"%string; "书"%string; "布"%string; "复"%string; "容"%string; "儿"%string; "须"%string; "际"%string; "商"%string; "非"%string; "验"%string; "连"%string; "断"%string;
"深"%string; "难"%string; "近"%string; "矿"%string; "千"%string; "周"%string; "委"%string; "素"%string; "技"%string; "备"%string; "半"%string; "办"%string; "青"%string; "省"%string; "列"%string; "习"%string;
"响"%string; "约"%string; "支"%string; "般"%string; "史"%string; "感"%string; "劳"%string; "便"%string; "团"%string; "往"%string; "酸"%string; "历"%string; "市"%string; "克"%string; "何"%string; "除"%string;
"消"%string; "构"%string; "府"%string; "称"%string; "太"%string; "准"%string; "精"%string; "值"%string; "号"%string; "率"%string; "族"%string; "维"%string; "划"%string; "选"%string; "标"%string; "写"%string;
"存"%string; "候"%string; "毛"%string; "亲"%string; "快"%string; "效"%string; "斯"%string; "院"%string; "查"%string; "江"%string; "型"%string; "眼"%string; "王"%string; "按"%string; "格"%string; "养"%string;
"易"%string; "置"%string; "派"%string; "层"%string; "片"%string; "始"%string; "却"%string; "专"%string; "状"%string; "育"%string; "厂"%string; "京"%string; "识"%string; "适"%string; "属"%string; "圆"%string;
"包"%string; "火"%string; "住"%string; "调"%string; "满"%string; "县"%string; "局"%string; "照"%string; "参"%string; "红"%string; "细"%string; "引"%string; "听"%string; "该"%string; "铁"%string; "价"%string;
"严"%string; "首"%string; "底"%string; "液"%string; "官"%string; "德"%string; "随"%string; "病"%string; "苏"%string; "失"%string; "尔"%string; "死"%string; "讲"%string; "配"%string; "女"%string; "黄"%string;
"推"%string; "显"%string; "谈"%string; "罪"%string; "神"%string; "艺"%string; "呢"%string; "席"%string; "含"%string; "企"%string; "望"%string; "密"%string; "批"%string; "营"%string; "项"%string; "防"%string;
"举"%string; "球"%string; "英"%string; "氧"%string; "势"%string; "告"%string; "李"%string; "台"%string; "落"%string; "木"%string; "帮"%string; "轮"%string; "破"%string; "亚"%string; "师"%string; "围"%string;
"注"%string; "远"%string; "字"%string; "材"%string; "排"%string; "供"%string; "河"%string; "态"%string; "封"%string; "另"%string; "施"%string; "减"%string; "树"%string; "溶"%string; "怎"%string; "止"%string;
"案"%string; "言"%string; "士"%string; "均"%string; "武"%string; "固"%string; "叶"%string; "鱼"%string; "波"%string; "视"%string; "仅"%string; "费"%string; "紧"%string; "爱"%string; "左"%string; "章"%string;
"早"%string; "朝"%string; "害"%string; "续"%string; "轻"%string; "服"%string; "试"%string; "食"%string; "充"%string; "兵"%string; "源"%string; "判"%string; "护"%string; "司"%string; "足"%string; "某"%string;
"练"%string; "差"%string; "致"%string; "板"%string; "田"%string; "降"%string; "黑"%string; "犯"%string; "负"%string; "击"%string; "范"%string; "继"%string; "兴"%string; "似"%string; "余"%string; "坚"%string;
"曲"%string; "输"%string; "修"%string; "故"%string; "城"%string; "夫"%string; "够"%string; "送"%string; "笔"%string; "船"%string; "占"%string; "右"%string; "财"%string; "吃"%string; "富"%string; "春"%string;
"职"%string; "觉"%string; "汉"%string; "画"%string; "功"%string; "巴"%string; "跟"%string; "虽"%string; "杂"%string; "飞"%string; "检"%string; "吸"%string; "助"%string; "升"%string; "阳"%string; "互"%string;
"初"%string; "创"%string; "抗"%string; "考"%string; "投"%string; "坏"%string; "策"%string; "古"%string; "径"%string; "换"%string; "未"%string; "跑"%string; "留"%string; "钢"%string; "曾"%string; "端"%string;
"责"%string; "站"%string; "简"%string; "述"%string; "钱"%string; "副"%string; "尽"%string; "帝"%string; "射"%string; "草"%string; "冲"%string; "承"%string; "独"%string; "令"%string; "限"%string; "阿"%string;
"宣"%string; "环"%string; "双"%string; "请"%string; "超"%string; "微"%string; "让"%string; "控"%string; "州"%string; "良"%string; "轴"%string; "找"%string; "否"%string; "纪"%string; "益"%string; "依"%string;
"优"%string; "顶"%string; "础"%string; "载"%string; "倒"%string; "房"%string; "突"%string; "坐"%string; "粉"%string; "敌"%string; "略"%string; "客"%string; "袁"%string; "冷"%string; "胜"%string; "绝"%string;
"析"%string; "块"%string; "剂"%string; "测"%string; "丝"%string; "协"%string; "诉"%string; "念"%string; "陈"%string; "仍"%string; "罗"%string; "盐"%string; "友"%string; "洋"%string; "错"%string; "苦"%string;
"夜"%string; "刑"%string; "移"%string; "频"%string; "逐"%string; "靠"%string; "混"%string; "母"%string; "短"%string; "皮"%string; "终"%string; "聚"%string; "汽"%string; "村"%string; "云"%string; "哪"%string;
"既"%string; "距"%string; "卫"%string; "停"%string; "烈"%string; "央"%string; "察"%string; "烧"%string; "迅"%string; "境"%string; "若"%string; "印"%string; "洲"%string; "刻"%string; "括"%string; "激"%string;
"孔"%string; "搞"%string; "甚"%string; "室"%string; "待"%string; "核"%string; "校"%string; "散"%string; "侵"%string; "吧"%string; "甲"%string; "游"%string; "久"%string; "菜"%string; "味"%string; "旧"%string;
"模"%string; "湖"%string; "货"%string; "损"%string; "预"%string; "阻"%string; "毫"%string; "普"%string; "稳"%string; "乙"%string; "妈"%string; "植"%string; "息"%string; "扩"%string; "银"%string; "语"%string;
"挥"%string; "酒"%string; "守"%string; "拿"%string; "序"%string; "纸"%string; "医"%string; "缺"%string; "雨"%string; "吗"%string; "针"%string; "刘"%string; "啊"%string; "急"%string; "唱"%string; "误"%string;
"训"%string; "愿"%string; "审"%string; "附"%string; "获"%string; "茶"%string; "鲜"%string; "粮"%string; "斤"%string; "孩"%string; "脱"%string; "硫"%string; "肥"%string; "善"%string; "龙"%string; "演"%string;
"父"%string; "渐"%string; "血"%string; "欢"%string; "械"%string; "掌"%string; "歌"%string; "沙"%string; "刚"%string; "攻"%string; "谓"%string; "盾"%string; "讨"%string; "晚"%string; "粒"%string; "乱"%string;
"燃"%string; "矛"%string; "乎"%string; "杀"%string; "药"%string; "宁"%string; "鲁"%string; "贵"%string; "钟"%string; "煤"%string; "读"%string; "班"%string; "伯"%string; "香"%string; "介"%string; "迫"%string;
"句"%string; "丰"%string; "培"%string; "握"%string; "兰"%string; "担"%string; "弦"%string; "蛋"%string; "沉"%string; "假"%string; "穿"%string; "执"%string; "答"%string; "乐"%string; "谁"%string; "顺"%string;
"烟"%string; "缩"%string; "征"%string; "脸"%string; "喜"%string; "松"%string; "脚"%string; "困"%string; "异"%string; "免"%string; "背"%string; "星"%string; "福"%string; "买"%string; "染"%string; "井"%string;
"概"%string; "慢"%string; "怕"%string; "磁"%string; "倍"%string; "祖"%string; "皇"%string; "促"%string; "静"%string; "补"%string; "评"%string; "翻"%string; "肉"%string; "践"%string; "尼"%string; "衣"%string;
"宽"%string; "扬"%string; "棉"%string; "希"%string; "伤"%string; "操"%string; "垂"%string; "秋"%string; "宜"%string; "氢"%string; "套"%string; "督"%string; "振"%string; "架"%string; "亮"%string; "末"%string;
"宪"%string; "庆"%string; "编"%string; "牛"%string; "触"%string; "映"%string; "雷"%string; "销"%string; "诗"%string; "座"%string; "居"%string; "抓"%string; "裂"%string; "胞"%string; "呼"%string; "娘"%string;
"景"%string; "威"%string; "绿"%string; "晶"%string; "厚"%string; "盟"%string; "衡"%string; "鸡"%string; "孙"%string; "延"%string; "危"%string; "胶"%string; "屋"%string; "乡"%string; "临"%string; "陆"%string;
"顾"%string; "掉"%string; "呀"%string; "灯"%string; "岁"%string; "措"%string; "束"%string; "耐"%string; "剧"%string; "玉"%string; "赵"%string; "跳"%string; "哥"%string; "季"%string; "课"%string; "凯"%string;
"胡"%string; "额"%string; "款"%string; "绍"%string; "卷"%string; "齐"%string; "伟"%string; "蒸"%string; "殖"%string; "永"%string; "宗"%string; "苗"%string; "川"%string; "炉"%string; "岩"%string; "弱"%string;
"零"%string; "杨"%string; "奏"%string; "沿"%string; "露"%string; "杆"%string; "探"%string; "滑"%string; "镇"%string; "饭"%string; "浓"%string; "航"%string; "怀"%string; "赶"%string; "库"%string; "夺"%string;
"伊"%string; "灵"%string; "税"%string; "途"%string; "灭"%string; "赛"%string; "归"%string; "召"%string; "鼓"%string; "播"%string; "盘"%string; "裁"%string; "险"%string; "康"%string; "唯"%string; "录"%string;
"菌"%string; "纯"%string; "借"%string; "糖"%string; "盖"%string; "横"%string; "符"%string; "私"%string; "努"%string; "堂"%string; "域"%string; "枪"%string; "润"%string; "幅"%string; "哈"%string; "竟"%string;
"熟"%string; "虫"%string; "泽"%string; "脑"%string; "壤"%string; "碳"%string; "欧"%string; "遍"%string; "侧"%string; "寨"%string; "敢"%string; "彻"%string; "虑"%string; "斜"%string; "薄"%string; "庭"%string;
"纳"%string; "弹"%string; "饲"%string; "伸"%string; "折"%string; "麦"%string; "湿"%string; "暗"%string; "荷"%string; "瓦"%string; "塞"%string; "床"%string; "筑"%string; "恶"%string; "户"%string; "访"%string;
"塔"%string; "奇"%string; "透"%string; "梁"%string; "刀"%string; "旋"%string; "迹"%string; "卡"%string; "氯"%string; "遇"%string; "份"%string; "毒"%string; "泥"%string; "退"%string; "洗"%string; "摆"%string;
"灰"%string; "彩"%string; "卖"%string; "耗"%string; "夏"%string; "择"%string; "忙"%string; "铜"%string; "献"%string; "硬"%string; "予"%string; "繁"%string; "圈"%string; "雪"%string; "函"%string; "亦"%string;
"抽"%string; "篇"%string; "阵"%string; "阴"%string; "丁"%string; "尺"%string; "追"%string; "堆"%string; "雄"%string; "迎"%string; "泛"%string; "爸"%string; "楼"%string; "避"%string; "谋"%string; "吨"%string;
"野"%string; "猪"%string; "旗"%string; "累"%string; "偏"%string; "典"%string; "馆"%string; "索"%string; "秦"%string; "脂"%string; "潮"%string; "爷"%string; "豆"%string; "忽"%string; "托"%string; "惊"%string;
"塑"%string; "遗"%string; "愈"%string; "朱"%string; "替"%string; "纤"%string; "粗"%string; "倾"%string; "尚"%string; "痛"%string; "楚"%string; "谢"%string; "奋"%string; "购"%string; "磨"%string; "君"%string;
"池"%string; "旁"%string; "碎"%string; "骨"%string; "监"%string; "捕"%string; "弟"%string; "暴"%string; "割"%string; "贯"%string; "殊"%string; "释"%string; "词"%string; "亡"%string; "壁"%string; "顿"%string;
"宝"%string; "午"%string; "尘"%string; "闻"%string; "揭"%string; "炮"%string; "残"%string; "冬"%string; "桥"%string; "妇"%string; "警"%string; "综"%string; "招"%string; "吴"%string; "付"%string; "浮"%string;
"遭"%string; "徐"%string; "您"%string; "摇"%string; "谷"%string; "赞"%string; "箱"%string; "隔"%string; "订"%string; "男"%string; "吹"%string; "园"%string; "纷"%string; "唐"%string; "败"%string; "宋"%string;
"玻"%string; "巨"%string; "耕"%string; "坦"%string; "荣"%string; "闭"%string; "湾"%string; "键"%string; "凡"%string; "驻"%string; "锅"%string; "救"%string; "恩"%string; "剥"%string; "凝"%string; "碱"%string;
"齿"%string; "截"%string; "炼"%string; "麻"%string; "纺"%string; "禁"%string; "废"%string; "盛"%string; "版"%string; "缓"%string; "净"%string; "睛"%string; "昌"%string; "婚"%string; "涉"%string; "筒"%string;
"嘴"%string; "插"%string; "岸"%string; "朗"%string; "庄"%string; "街"%string; "藏"%string; "姑"%string; "贸"%string; "腐"%string; "奴"%string; "啦"%string; "惯"%string; "乘"%string; "伙"%string; "恢"%string;
"匀"%string; "纱"%string; "扎"%string; "辩"%string; "耳"%string; "彪"%string; "臣"%string; "亿"%string; "璃"%string; "抵"%string; "脉"%string; "秀"%string; "萨"%string; "俄"%string; "网"%string; "舞"%string;
"店"%string; "喷"%string; "纵"%string; "寸"%string; "汗"%string; "挂"%string; "洪"%string; "贺"%string; "闪"%string; "柬"%string; "爆"%string; "烯"%string; "津"%string; "稻"%string; "墙"%string; "软"%string;
"勇"%string; "像"%string; "滚"%string; "厘"%string; "蒙"%string; "芳"%string; "肯"%string; "坡"%string; "柱"%string; "荡"%string; "腿"%string; "仪"%string; "旅"%string; "尾"%string; "轧"%string; "冰"%string;
"贡"%string; "登"%string; "黎"%string; "削"%string; "钻"%string; "勒"%string; "逃"%string; "障"%string; "氨"%string; "郭"%string; "峰"%string; "币"%string; "港"%string; "伏"%string; "轨"%string; "亩"%string;
"毕"%string; "擦"%string; "莫"%string; "刺"%string; "浪"%string; "秘"%string; "援"%string; "株"%string; "健"%string; "售"%string; "股"%string; "岛"%string; "甘"%string; "泡"%string; "睡"%string; "童"%string;
"铸"%string; "汤"%string; "阀"%string; "休"%string; "汇"%string; "舍"%string; "牧"%string; "绕"%string; "炸"%string; "哲"%string; "磷"%string; "绩"%string; "朋"%string; "淡"%string; "尖"%string; "启"%string;
"陷"%string; "柴"%string; "呈"%string; "徒"%string; "颜"%string; "泪"%string; "稍"%string; "忘"%string; "泵"%string; "蓝"%string; "拖"%string; "洞"%string; "授"%string; "镜"%string; "辛"%string; "壮"%string;
"锋"%string; "贫"%string; "虚"%string; "弯"%string; "摩"%string; "泰"%string; "幼"%string; "廷"%string; "尊"%string; "窗"%string; "纲"%string; "弄"%string; "隶"%string; "疑"%string; "氏"%string; "宫"%string;
"姐"%string; "震"%string; "瑞"%string; "怪"%string; "尤"%string; "琴"%string; "循"%string; "描"%string; "膜"%string; "违"%string; "夹"%string; "腰"%string; "缘"%string; "珠"%string; "穷"%string; "森"%string;
"枝"%string; "竹"%string; "沟"%string; "催"%string; "绳"%string; "忆"%string; "邦"%string; "剩"%string; "幸"%string; "浆"%string; "栏"%string; "拥"%string; "牙"%string; "贮"%string; "礼"%string; "滤"%string;
"钠"%string; "纹"%string; "罢"%string; "拍"%string; "咱"%string; "喊"%string; "袖"%string; "埃"%string; "勤"%string; "罚"%string; "焦"%string; "潜"%string; "伍"%string; "墨"%string; "欲"%string; "缝"%string;
"姓"%string; "刊"%string; "饱"%string; "仿"%string; "奖"%string; "铝"%string; "鬼"%string; "丽"%string; "跨"%string; "默"%string; "挖"%string; "链"%string; "扫"%string; "喝"%string; "袋"%string; "炭"%string;
"污"%string; "幕"%string; "诸"%string; "弧"%string; "励"%string; "梅"%string; "奶"%string; "洁"%string; "灾"%string; "舟"%string; "鉴"%string; "苯"%string; "讼"%string; "抱"%string; "毁"%string; "懂"%string;
"寒"%string; "智"%string; "埔"%string; "寄"%string; "届"%string; "跃"%string; "渡"%string; "挑"%string; "丹"%string; "艰"%string; "贝"%string; "碰"%string; "拔"%string; "爹"%string; "戴"%string; "码"%string;
"梦"%string; "芽"%string; "熔"%string; "赤"%string; "渔"%string; "哭"%string; "敬"%string; "颗"%string; "奔"%string; "铅"%string; "仲"%string; "虎"%string; "稀"%string; "妹"%string; "乏"%string; "珍"%string;
"申"%string; "桌"%string; "遵"%string; "允"%string; "隆"%string; "螺"%string; "仓"%string; "魏"%string; "锐"%string; "晓"%string; "氮"%string; "兼"%string; "隐"%string; "碍"%string; "赫"%string; "拨"%string;
"忠"%string; "肃"%string; "缸"%string; "牵"%string; "抢"%string; "博"%string; "巧"%string; "壳"%string; "兄"%string; "杜"%string; "讯"%string; "诚"%string; "碧"%string; "祥"%string; "柯"%string; "页"%string;
"巡"%string; "矩"%string; "悲"%string; "灌"%string; "龄"%string; "伦"%string; "票"%string; "寻"%string; "桂"%string; "铺"%string; "圣"%string; "恐"%string; "恰"%string; "郑"%string; "趣"%string; "抬"%string;
"荒"%string; "腾"%string; "贴"%string; "柔"%string; "滴"%string; "猛"%string; "阔"%string; "辆"%string; "妻"%string; "填"%string; "撤"%string; "储"%string; "签"%string; "闹"%string; "扰"%string; "紫"%string;
"砂"%string; "递"%string; "戏"%string; "吊"%string; "陶"%string; "伐"%string; "喂"%string; "疗"%string; "瓶"%string; "婆"%string; "抚"%string; "臂"%string; "摸"%string; "忍"%string; "虾"%string; "蜡"%string;
"邻"%string; "胸"%string; "巩"%string; "挤"%string; "偶"%string; "弃"%string; "槽"%string; "劲"%string; "乳"%string; "邓"%string; "吉"%string; "仁"%string; "烂"%string; "砖"%string; "租"%string; "乌"%string;
"舰"%string; "伴"%string; "瓜"%string; "浅"%string; "丙"%string; "暂"%string; "燥"%string; "橡"%string; "柳"%string; "迷"%string; "暖"%string; "牌"%string; "秧"%string; "胆"%string; "详"%string; "簧"%string;
"踏"%string; "瓷"%string; "谱"%string; "呆"%string; "宾"%string; "糊"%string; "洛"%string; "辉"%string; "愤"%string; "竞"%string; "隙"%string; "怒"%string; "粘"%string; "乃"%string; "绪"%string; "肩"%string;
"籍"%string; "敏"%string; "涂"%string; "熙"%string; "皆"%string; "侦"%string; "悬"%string; "掘"%string; "享"%string; "纠"%string; "醒"%string; "狂"%string; "锁"%string; "淀"%string; "恨"%string; "牲"%string;
"霸"%string; "爬"%string; "赏"%string; "逆"%string; "玩"%string; "陵"%string; "祝"%string; "秒"%string; "浙"%string; "貌"%string; "役"%string; "彼"%string; "悉"%string; "鸭"%string; "趋"%string; "凤"%string;
"晨"%string; "畜"%string; "辈"%string; "秩"%string; "卵"%string; "署"%string; "梯"%string; "炎"%string; "滩"%string; "棋"%string; "驱"%string; "筛"%string; "峡"%string; "冒"%string; "啥"%string; "寿"%string;
"译"%string; "浸"%string; "泉"%string; "帽"%string; "迟"%string; "硅"%string; "疆"%string; "贷"%string; "漏"%string; "稿"%string; "冠"%string; "嫩"%string; "胁"%string; "芯"%string; "牢"%string; "叛"%string;
"蚀"%string; "奥"%string; "鸣"%string; "岭"%string; "羊"%string; "凭"%string; "串"%string; "塘"%string; "绘"%string; "酵"%string; "融"%string; "盆"%string; "锡"%string; "庙"%string; "筹"%string; "冻"%string;
"辅"%string; "摄"%string; "袭"%string; "筋"%string; "拒"%string; "僚"%string; "旱"%string; "钾"%string; "鸟"%string; "漆"%string; "沈"%string; "眉"%string; "疏"%string; "添"%string; "棒"%string; "穗"%string;
"硝"%string; "韩"%string; "逼"%string; "扭"%string; "侨"%string; "凉"%string; "挺"%string; "碗"%string; "栽"%string; "炒"%string; "杯"%string; "患"%string; "馏"%string; "劝"%string; "豪"%string; "辽"%string;
"勃"%string; "鸿"%string; "旦"%string; "吏"%string; "拜"%string; "狗"%string; "埋"%string; "辊"%string; "掩"%string; "饮"%string; "搬"%string; "骂"%string; "辞"%string; "勾"%string; "扣"%string; "估"%string;
"蒋"%string; "绒"%string; "雾"%string; "丈"%string; "朵"%string; "姆"%string; "拟"%string; "宇"%string; "辑"%string; "陕"%string; "雕"%string; "偿"%string; "蓄"%string; "崇"%string; "剪"%string; "倡"%string;
"厅"%string; "咬"%string; "驶"%string; "薯"%string; "刷"%string; "斥"%string; "番"%string; "赋"%string; "奉"%string; "佛"%string; "浇"%string; "漫"%string; "曼"%string; "扇"%string; "钙"%string; "桃"%string;
"扶"%string; "仔"%string; "返"%string; "俗"%string; "亏"%string; "腔"%string; "鞋"%string; "棱"%string; "覆"%string; "框"%string; "悄"%string; "叔"%string; "撞"%string; "骗"%string; "勘"%string; "旺"%string;
"沸"%string; "孤"%string; "吐"%string; "孟"%string; "渠"%string; "屈"%string; "疾"%string; "妙"%string; "惜"%string; "仰"%string; "狠"%string; "胀"%string; "谐"%string; "抛"%string; "霉"%string; "桑"%string;
"岗"%string; "嘛"%string; "衰"%string; "盗"%string; "渗"%string; "脏"%string; "赖"%string; "涌"%string; "甜"%string; "曹"%string; "阅"%string; "肌"%string; "哩"%string; "厉"%string; "烃"%string; "纬"%string;
"毅"%string; "昨"%string; "伪"%string; "症"%string; "煮"%string; "叹"%string; "钉"%string; "搭"%string; "茎"%string; "笼"%string; "酷"%string; "偷"%string; "弓"%string; "锥"%string; "恒"%string; "杰"%string;
"坑"%string; "鼻"%string; "翼"%string; "纶"%string; "叙"%string; "狱"%string; "逮"%string; "罐"%string; "络"%string; "棚"%string; "抑"%string; "膨"%string; "蔬"%string; "寺"%string; "骤"%string; "穆"%string;
"冶"%string; "枯"%string; "册"%string; "尸"%string; "凸"%string; "绅"%string; "坯"%string; "牺"%string; "焰"%string; "轰"%string; "欣"%string; "晋"%string; "瘦"%string; "御"%string; "锭"%string; "锦"%string;
"丧"%string; "旬"%string; "锻"%string; "垄"%string; "搜"%string; "扑"%string; "邀"%string; "亭"%string; "酯"%string; "迈"%string; "舒"%string; "脆"%string; "酶"%string; "闲"%string; "忧"%string; "酚"%string;
"顽"%string; "羽"%string; "涨"%string; "卸"%string; "仗"%string; "陪"%string; "辟"%string; "惩"%string; "杭"%string; "姚"%string; "肚"%string; "捉"%string; "飘"%string; "漂"%string; "昆"%string; "欺"%string;
"吾"%string; "郎"%string; "烷"%string; "汁"%string; "呵"%string; "饰"%string; "萧"%string; "雅"%string; "邮"%string; "迁"%string; "燕"%string; "撒"%string; "姻"%string; "赴"%string; "宴"%string; "烦"%string;
"债"%string; "帐"%string; "斑"%string; "铃"%string; "旨"%string; "醇"%string; "董"%string; "饼"%string; "雏"%string; "姿"%string; "拌"%string; "傅"%string; "腹"%string; "妥"%string; "揉"%string; "贤"%string;
"拆"%string; "歪"%string; "葡"%string; "胺"%string; "丢"%string; "浩"%string; "徽"%string; "昂"%string; "垫"%string; "挡"%string; "览"%string; "贪"%string; "慰"%string; "缴"%string; "汪"%string; "慌"%string;
"冯"%string; "诺"%string; "姜"%string; "谊"%string; "凶"%string; "劣"%string; "诬"%string; "耀"%string; "昏"%string; "躺"%string; "盈"%string; "骑"%string; "乔"%string; "溪"%string; "丛"%string; "卢"%string;
"抹"%string; "闷"%string; "咨"%string; "刮"%string; "驾"%string; "缆"%string; "悟"%string; "摘"%string; "铒"%string; "掷"%string; "颇"%string; "幻"%string; "柄"%string; "惠"%string; "惨"%string; "佳"%string;
"仇"%string; "腊"%string; "窝"%string; "涤"%string; "剑"%string; "瞧"%string; "堡"%string; "泼"%string; "葱"%string; "罩"%string; "霍"%string; "捞"%string; "胎"%string; "苍"%string; "滨"%string; "俩"%string;
"捅"%string; "湘"%string; "砍"%string; "霞"%string; "邵"%string; "萄"%string; "疯"%string; "淮"%string; "遂"%string; "熊"%string; "粪"%string; "烘"%string; "宿"%string; "档"%string; "戈"%string; "驳"%string;
"嫂"%string; "裕"%string; "徙"%string; "箭"%string; "捐"%string; "肠"%string; "撑"%string; "晒"%string; "辨"%string; "殿"%string; "莲"%string; "摊"%string; "搅"%string; "酱"%string; "屏"%string; "疫"%string;
"哀"%string; "蔡"%string; "堵"%string; "沫"%string; "皱"%string; "畅"%string; "叠"%string; "阁"%string; "莱"%string; "敲"%string; "辖"%string; "钩"%string; "痕"%string; "坝"%string; "巷"%string; "饿"%string;
"祸"%string; "丘"%string; "玄"%string; "溜"%string; "曰"%string; "逻"%string; "彭"%string; "尝"%string; "卿"%string; "妨"%string; "艇"%string; "吞"%string; "韦"%string; "怨"%string; "矮"%string; "歇"%string].
(** words/japanese.go:9. *)
Definition Japanese : list bytes := map str_bytes [
"あいこくしん"%string; "あいさつ"%string; "あいだ"%string; "あおぞら"%string; "あかちゃん"%string; "あきる"%string; "あけがた"%string; "あける"%string; "あこがれる"%string; "あさい"%string; "あさひ"%string; "あしあと"%string; "あじわう"%string; "あずかる"%string; "あずき"%string; "あそぶ"%string;
"あたえる"%string; "あたためる"%string; "あたりまえ"%string; "あたる"%string; "あつい"%string; "あつかう"%string; "あっしゅく"%string; "あつまり"%string; "あつめる"%string; "あてな"%string; "あてはまる"%string; "あひる"%string; "あぶら"%string; "あぶる"%string; "あふれる"%string; "あまい"%string;
"あまど"%string; "あまやかす"%string; "あまり"%string; "あみもの"%string; "あめりか"%string; "あやまる"%string; "あゆむ"%string; "あらいぐま"%string; "あらし"%string; "あらすじ"%string; "あらためる"%string; "あらゆる"%string; "あらわす"%string; "ありがとう"%string; "あわせる"%string; "あわてる"%string;
"あんい"%string; "あんがい"%string; "あんこ"%string; "あんぜん"%string; "あんてい"%string; "あんない"%string; "あんまり"%string; "いいだす"%string; "いおん"%string; "いがい"%string; "いがく"%string; "いきおい"%string; "いきなり"%string; "いきもの"%string; "いきる"%string; "いくじ"%string;
"いくぶん"%string; "いけばな"%string; "いけん"%string; "いこう"%string; "いこく"%string; "いこつ"%string; "いさましい"%string; "いさん"%string; "いしき"%string; "いじゅう"%string; "いじょう"%string; "いじわる"%string; "いずみ"%string; "いずれ"%string; "いせい"%string; "いせえび"%string;
"いせかい"%string; "いせき"%string; "いぜん"%string; "いそうろう"%string; "いそがしい"%string; "いだい"%string; "いだく"%string; "いたずら"%string; "いたみ"%string; "いたりあ"%string; "いちおう"%string; "いちじ"%string; "いちど"%string; "いちば"%string; "いちぶ"%string; "いちりゅう"%string;
"いつか"%string; "いっしゅん"%string; "いっせい"%string; "いっそう"%string; "いったん"%string; "いっち"%string; "いってい"%string; "いっぽう"%string; "いてざ"%string; "いてん"%string; "いどう"%string; "いとこ"%string; "いない"%string; "いなか"%string; "いねむり"%string; "いのち"%string;
"いのる"%string; "いはつ"%string; "いばる"%string; "いはん"%string; "いびき"%string; "いひん"%string; "いふく"%string; "いへん"%string; "いほう"%string; "いみん"%string; "いもうと"%string; "いもたれ"%string; "いもり"%string; "いやがる"%string; "いやす"%string; "いよかん"%string;
"いよく"%string; "いらい"%string; "いらすと"%string; "いりぐち"%string; "いりょう"%string; "いれい"%string; "いれもの"%string; "いれる"%string; "いろえんぴつ"%string; "いわい"%string; "いわう"%string; "いわかん"%string; "いわば"%string; "いわゆる"%string; "いんげんまめ"%string; "いんさつ"%string;
"いんしょう"%string; "いんよう"%string; "うえき"%string; "うえる"%string; "うおざ"%string; "うがい"%string; "うかぶ"%string; "うかべる"%string; "うきわ"%string; "うくらいな"%string; "うくれれ"%string; "うけたまわる"%string; "うけつけ"%string; "うけとる"%string; "うけもつ"%string; "うける"%string;
"うごかす"%string; "うごく"%string; "うこん"%string; "うさぎ"%string; "うしなう"%string; "うしろがみ"%string; "うすい"%string; "うすぎ"%string; "うすぐらい"%string; "うすめる"%string; "うせつ"%string; "うちあわせ"%string; "うちがわ"%string; "うちき"%string; "うちゅう"%string; "うっかり"%string;
"うつくしい"%string; "うったえる"%string; "うつる"%string; "うどん"%string; "うなぎ"%string; "うなじ"%string; "うなずく"%string; "うなる"%string; "うねる"%string; "うのう"%string; "うぶげ"%string; "うぶごえ"%string; "うまれる"%string; "うめる"%string; "うもう"%string; "うやまう"%string;
"うよく"%string; "うらがえす"%string; "うらぐち"%string; "うらない"%string; "うりあげ"%string; "うりきれ"%string; "うるさい"%string; "うれしい"%string; "うれゆき"%string; "うれる"%string; "うろこ"%string; "うわき"%string; "うわさ"%string; "うんこう"%string; "うんちん"%string; "うんてん"%string;
"うんどう"%string; "えいえん"%string; "えいが"%string; "えいきょう"%string; "えいご"%string; "えいせい"%string; "えいぶん"%string; "えいよう"%string; "えいわ"%string; "えおり"%string; "えがお"%string; "えがく"%string; "えきたい"%string; "えくせる"%string; "えしゃく"%string; "えすて"%string;
"えつらん"%string; "えのぐ"%string; "えほうまき"%string; "えほん"%string; "えまき"%string; "えもじ"%string; "えもの"%string; "えらい"%string; "えらぶ"%string; "えりあ"%string; "えんえん"%string; "えんかい"%string; "えんぎ"%string; "えんげき"%string; "えんしゅう"%string; "えんぜつ"%string;
"えんそく"%string; "えんちょう"%string; "えんとつ"%string; "おいかける"%string; "おいこす"%string; "おいしい"%string; "おいつく"%string; "おうえん"%string; "おうさま"%string; "おうじ"%string; "おうせつ"%string; "おうたい"%string; "おうふく"%string; "おうべい"%string; "おうよう"%string; "おえる"%string;
"おおい"%string; "おおう"%string; "おおどおり"%string; "おおや"%string; "おおよそ"%string; "おかえり"%string; "おかず"%string; "おがむ"%string; "おかわり"%string; "おぎなう"%string; "おきる"%string; "おくさま"%string; "おくじょう"%string; "おくりがな"%string; "おくる"%string; "おくれる"%string;
"おこす"%string; "おこなう"%string; "おこる"%string; "おさえる"%string; "おさない"%string; "おさめる"%string; "おしいれ"%string; "おしえる"%string; "おじぎ"%string; "おじさん"%string; "おしゃれ"%string; "おそらく"%string; "おそわる"%string; "おたがい"%string; "おたく"%string; "おだやか"%string;
"おちつく"%string; "おっと"%string; "おつり"%string; "おでかけ"%string; "おとしもの"%string; "おとなしい"%string; "おどり"%string; "おどろかす"%string; "おばさん"%string; "おまいり"%string; "おめでとう"%string; "おもいで"%string; "おもう"%string; "おもたい"%string; "おもちゃ"%string; "おやつ"%string;
"おやゆび"%string; "およぼす"%string; "おらんだ"%string; "おろす"%string; "おんがく"%string; "おんけい"%string; "おんしゃ"%string; "おんせん"%string; "おんだん"%string; "おんちゅう"%string; "おんどけい"%string; "かあつ"%string; "かいが"%string; "がいき"%string; "がいけん"%string; "がいこう"%string;
"かいさつ"%string; "かいしゃ"%string; "かいすいよく"%string; "かいぜん"%string; "かいぞうど"%string; "かいつう"%string; "かいてん"%string; "かいとう"%string; "かいふく"%string; "がいへき"%string; "かいほう"%string; "かいよう"%string; "がいらい"%string; "かいわ"%string; "かえる"%string; "かおり"%string;
"かかえる"%string; "かがく"%string; "かがし"%string; "かがみ"%string; "かくご"%string; "かくとく"%string; "かざる"%string; "がぞう"%string; "かたい"%string; "かたち"%string; "がちょう"%string; "がっきゅう"%string; "がっこう"%string; "がっさん"%string; "がっしょう"%string; "かなざわし"%string;
"かのう"%string; "がはく"%string; "かぶか"%string; "かほう"%string; "かほご"%string; "かまう"%string; "かまぼこ"%string; "かめれおん"%string; "かゆい"%string; "かようび"%string; "からい"%string; "かるい"%string; "かろう"%string; "かわく"%string; "かわら"%string; "がんか"%string;
"かんけい"%string; "かんこう"%string; "かんしゃ"%string; "かんそう"%string; "かんたん"%string; "かんち"%string; "がんばる"%string; "きあい"%string; "きあつ"%string; "きいろ"%string; "ぎいん"%string; "きうい"%string; "きうん"%string; "きえる"%string; "きおう"%string; "きおく"%string;
"きおち"%string; "きおん"%string; "きかい"%string; "きかく"%string; "きかんしゃ"%string; "ききて"%string; "きくばり"%string; "きくらげ"%string; "きけんせい"%string; "きこう"%string; "きこえる"%string; "きこく"%string; "きさい"%string; "きさく"%string; "きさま"%string; "きさらぎ"%string;
"ぎじかがく"%string; "ぎしき"%string; "ぎじたいけん"%string; "ぎじにってい"%string; "ぎじゅつしゃ"%string; "きすう"%string; "きせい"%string; "きせき"%string; "きせつ"%string; "きそう"%string; "きぞく"%string; "きぞん"%string; "きたえる"%string; "きちょう"%string; "きつえん"%string; "ぎっちり"%string;
"きつつき"%string; "きつね"%string; "きてい"%string; "きどう"%string; "きどく"%string; "きない"%string; "きなが"%string; "きなこ"%string; "きぬごし"%string; "きねん"%string; "きのう"%string; "きのした"%string; "きはく"%string; "きびしい"%string; "きひん"%string; "きふく"%string;
"きぶん"%string; "きぼう"%string; "きほん"%string; "きまる"%string; "きみつ"%string; "きむずかしい"%string; "きめる"%string; "きもだめし"%string; "きもち"%string; "きもの"%string; "きゃく"%string; "きやく"%string; "ぎゅうにく"%string; "きよう"%string; "きょうりゅう"%string; "きらい"%string;
"きらく"%string; "きりん"%string; "きれい"%string; "きれつ"%string; "きろく"%string; "ぎろん"%string; "きわめる"%string; "ぎんいろ"%string; "きんかくじ"%string; "きんじょ"%string; "きんようび"%string; "ぐあい"%string; "くいず"%string; "くうかん"%string; "くうき"%string; "くうぐん"%string;
"くうこう"%string; "ぐうせい"%string; "くうそう"%string; "ぐうたら"%string; "くうふく"%string; "くうぼ"%string; "くかん"%string; "くきょう"%string; "くげん"%string; "ぐこう"%string; "くさい"%string; "くさき"%string; "くさばな"%string; "くさる"%string; "くしゃみ"%string; "くしょう"%string;
"くすのき"%string; "くすりゆび"%string; "くせげ"%string; "くせん"%string; "ぐたいてき"%string; "くださる"%string; "くたびれる"%string; "くちこみ"%string; "くちさき"%string; "くつした"%string; "ぐっすり"%string; "くつろぐ"%string; "くとうてん"%string; "くどく"%string; "くなん"%string; "くねくね"%string;
"くのう"%string; "くふう"%string; "くみあわせ"%string; "くみたてる"%string; "くめる"%string; "くやくしょ"%string; "くらす"%string; "くらべる"%string; "くるま"%string; "くれる"%string; "くろう"%string; "くわしい"%string; "ぐんかん"%string; "ぐんしょく"%string; "ぐんたい"%string; "ぐんて"%string;
"けあな"%string; "けいかく"%string; "けいけん"%string; "けいこ"%string; "けいさつ"%string; "げいじゅつ"%string; "けいたい"%string; "げいのうじん"%string; "けいれき"%string; "けいろ"%string; "けおとす"%string; "けおりもの"%string; "げきか"%string; "げきげん"%string; "げきだん"%string; "げきちん"%string;
"げきとつ"%string; "げきは"%string; "げきやく"%string; "げこう"%string; "げこくじょう"%string; "げざい"%string; "けさき"%string; "げざん"%string; "けしき"%string; "けしごむ"%string; "けしょう"%string; "げすと"%string; "けたば"%string; "けちゃっぷ"%string; "けちらす"%string; "けつあつ"%string;
"けつい"%string; "けつえき"%string; "けっこん"%string; "けつじょ"%string; "けっせき"%string; "けってい"%string; "けつまつ"%string; "げつようび"%string; "げつれい"%string; "けつろん"%string; "げどく"%string; "けとばす"%string; "けとる"%string; "けなげ"%string; "けなす"%string; "けなみ"%string;
"けぬき"%string; "げねつ"%string; "けねん"%string; "けはい"%string; "げひん"%string; "けぶかい"%string; "げぼく"%string; "けまり"%string; "けみかる"%string; "けむし"%string; "けむり"%string; "けもの"%string; "けらい"%string; "けろけろ"%string; "けわしい"%string; "けんい"%string;
"けんえつ"%string; "けんお"%string; "けんか"%string; "げんき"%string; "けんげん"%string; "けんこう"%string; "けんさく"%string; "けんしゅう"%string; "けんすう"%string; "げんそう"%string; "けんちく"%string; "けんてい"%string; "けんとう"%string; "けんない"%string; "けんにん"%string; "げんぶつ"%string;
"けんま"%string; "けんみん"%string; "けんめい"%string; "けんらん"%string; "けんり"%string; "こあくま"%string; "こいぬ"%string; "こいびと"%string; "ごうい"%string; "こうえん"%string; "こうおん"%string; "こうかん"%string; "ごうきゅう"%string; "ごうけい"%string; "こうこう"%string; "こうさい"%string;
"こうじ"%string; "こうすい"%string; "ごうせい"%string; "こうそく"%string; "こうたい"%string; "こうちゃ"%string; "こうつう"%string; "こうてい"%string; "こうどう"%string; "こうない"%string; "こうはい"%string; "ごうほう"%string; "ごうまん"%string; "こうもく"%string; "こうりつ"%string; "こえる"%string;
"こおり"%string; "ごかい"%string; "ごがつ"%string; "ごかん"%string; "こくご"%string; "こくさい"%string; "こくとう"%string; "こくない"%string; "こくはく"%string; "こぐま"%string; "こけい"%string; "こける"%string; "ここのか"%string; "こころ"%string; "こさめ"%string; "こしつ"%string;
"こすう"%string; "こせい"%string; "こせき"%string; "こぜん"%string; "こそだて"%string; "こたい"%string; "こたえる"%string; "こたつ"%string; "こちょう"%string; "こっか"%string; "こつこつ"%string; "こつばん"%string; "こつぶ"%string; "こてい"%string; "こてん"%string; "ことがら"%string;
"ことし"%string; "ことば"%string; "ことり"%string; "こなごな"%string; "こねこね"%string; "このまま"%string; "このみ"%string; "このよ"%string; "ごはん"%string; "こひつじ"%string; "こふう"%string; "こふん"%string; "こぼれる"%string; "ごまあぶら"%string; "こまかい"%string; "ごますり"%string;
"こまつな"%string; "こまる"%string; "こむぎこ"%string; "こもじ"%string; "こもち"%string; "こもの"%string; "こもん"%string; "こやく"%string; "こやま"%string; "こゆう"%string; "こゆび"%string; "こよい"%string; "こよう"%string; "こりる"%string; "これくしょん"%string; "ころっけ"%string;
"こわもて"%string; "こわれる"%string; "こんいん"%string; "こんかい"%string; "こんき"%string; "こんしゅう"%string; "こんすい"%string; "こんだて"%string; "こんとん"%string; "こんなん"%string; "こんびに"%string; "こんぽん"%string; "こんまけ"%string; "こんや"%string; "こんれい"%string; "こんわく"%string;
"ざいえき"%string; "さいかい"%string; "さいきん"%string; "ざいげん"%string; "ざいこ"%string; "さいしょ"%string; "さいせい"%string; "ざいたく"%string; "ざいちゅう"%string; "さいてき"%string; "ざいりょう"%string; "さうな"%string; "さかいし"%string; "さがす"%string; "さかな"%string; "さかみち"%string;
"さがる"%string; "さぎょう"%string; "さくし"%string; "さくひん"%string; "さくら"%string; "さこく"%string; "さこつ"%string; "さずかる"%string; "ざせき"%string; "さたん"%string; "さつえい"%string; "ざつおん"%string; "ざっか"%string; "ざつがく"%string; "さっきょく"%string; "ざっし"%string;
"さつじん"%string; "ざっそう"%string; "さつたば"%string; "さつまいも"%string; "さてい"%string; "さといも"%string; "さとう"%string; "さとおや"%string; "さとし"%string; "さとる"%string; "さのう"%string; "さばく"%string; "さびしい"%string; "さべつ"%string; "さほう"%string; "さほど"%string;
"さます"%string; "さみしい"%string; "さみだれ"%string; "さむけ"%string; "さめる"%string; "さやえんどう"%string; "さゆう"%string; "さよう"%string; "さよく"%string; "さらだ"%string; "ざるそば"%string; "さわやか"%string; "さわる"%string; "さんいん"%string; "さんか"%string; "さんきゃく"%string;
"さんこう"%string; "さんさい"%string; "ざんしょ"%string; "さんすう"%string; "さんせい"%string; "さんそ"%string; "さんち"%string; "さんま"%string; "さんみ"%string; "さんらん"%string; "しあい"%string; "しあげ"%string; "しあさって"%string; "しあわせ"%string; "しいく"%string; "しいん"%string;
"しうち"%string; "しえい"%string; "しおけ"%string; "しかい"%string; "しかく"%string; "じかん"%string; "しごと"%string; "しすう"%string; "じだい"%string; "したうけ"%string; "したぎ"%string; "したて"%string; "したみ"%string; "しちょう"%string; "しちりん"%string; "しっかり"%string;
"しつじ"%string; "しつもん"%string; "してい"%string; "してき"%string; "してつ"%string; "じてん"%string; "じどう"%string; "しなぎれ"%string; "しなもの"%string; "しなん"%string; "しねま"%string; "しねん"%string; "しのぐ"%string; "しのぶ"%string; "しはい"%string; "しばかり"%string;
"しはつ"%string; "しはらい"%string; "しはん"%string; "しひょう"%string; "しふく"%string; "じぶん"%string; "しへい"%string; "しほう"%string; "しほん"%string; "しまう"%string; "しまる"%string; "しみん"%string; "しむける"%string; "じむしょ"%string; "しめい"%string; "しめる"%string;
"しもん"%string; "しゃいん"%string; "しゃうん"%string; "しゃおん"%string; "じゃがいも"%string; "しやくしょ"%string; "しゃくほう"%string; "しゃけん"%string; "しゃこ"%string; "しゃざい"%string; "しゃしん"%string; "しゃせん"%string; "しゃそう"%string; "しゃたい"%string; "しゃちょう"%string; "しゃっきん"%string;
"じゃま"%string; "しゃりん"%string; "しゃれい"%string; "じゆう"%string; "じゅうしょ"%string; "しゅくはく"%string; "じゅしん"%string; "しゅっせき"%string; "しゅみ"%string; "しゅらば"%string; "じゅんばん"%string; "しょうかい"%string; "しょくたく"%string; "しょっけん"%string; "しょどう"%string; "しょもつ"%string;
"しらせる"%string; "しらべる"%string; "しんか"%string; "しんこう"%string; "じんじゃ"%string; "しんせいじ"%string; "しんちく"%string; "しんりん"%string; "すあげ"%string; "すあし"%string; "すあな"%string; "ずあん"%string; "すいえい"%string; "すいか"%string; "すいとう"%string; "ずいぶん"%string;
"すいようび"%string; "すうがく"%string; "すうじつ"%string; "すうせん"%string; "すおどり"%string; "すきま"%string; "すくう"%string; "すくない"%string; "すける"%string; "すごい"%string; "すこし"%string; "ずさん"%string; "すずしい"%string; "すすむ"%string; "すすめる"%string; "すっかり"%string;
"ずっしり"%string; "ずっと"%string; "すてき"%string; "すてる"%string; "すねる"%string; "すのこ"%string; "すはだ"%string; "すばらしい"%string; "ずひょう"%string; "ずぶぬれ"%string; "すぶり"%string; "すふれ"%string; "すべて"%string; "すべる"%string; "ずほう"%string; "すぼん"%string;
"すまい"%string; "すめし"%string; "すもう"%string; "すやき"%string; "すらすら"%string; "するめ"%string; "すれちがう"%string; "すろっと"%string; "すわる"%string; "すんぜん"%string; "すんぽう"%string; "せあぶら"%string; "せいかつ"%string; "せいげん"%string; "せいじ"%string; "せいよう"%string;
"せおう"%string; "せかいかん"%string; "せきにん"%string; "せきむ"%string; "せきゆ"%string; "せきらんうん"%string; "せけん"%string; "せこう"%string; "せすじ"%string; "せたい"%string; "せたけ"%string; "せっかく"%string; "せっきゃく"%string; "ぜっく"%string; "せっけん"%string; "せっこつ"%string;
"せっさたくま"%string; "せつぞく"%string; "せつだん"%string; "せつでん"%string; "せっぱん"%string; "せつび"%string; "せつぶん"%string; "せつめい"%string; "せつりつ"%string; "せなか"%string; "せのび"%string; "せはば"%string; "せびろ"%string; "せぼね"%string; "せまい"%string; "せまる"%string;
"せめる"%string; "せもたれ"%string; "せりふ"%string; "ぜんあく"%string; "せんい"%string; "せんえい"%string; "せんか"%string; "せんきょ"%string; "せんく"%string; "せんげん"%string; "ぜんご"%string; "せんさい"%string; "せんしゅ"%string; "せんすい"%string; "せんせい"%string; "せんぞ"%string;
"せんたく"%string; "せんちょう"%string; "せんてい"%string; "せんとう"%string; "せんぬき"%string; "せんねん"%string; "せんぱい"%string; "ぜんぶ"%string; "ぜんぽう"%string; "せんむ"%string; "せんめんじょ"%string; "せんもん"%string; "せんやく"%string; "せんゆう"%string; "せんよう"%string; "ぜんら"%string;
"ぜんりゃく"%string; "せんれい"%string; "せんろ"%string; "そあく"%string; "そいとげる"%string; "そいね"%string; "そうがんきょう"%string; "そうき"%string; "そうご"%string; "そうしん"%string; "そうだん"%string; "そうなん"%string; "そうび"%string; "そうめん"%string; "そうり"%string; "そえもの"%string;
"そえん"%string; "そがい"%string; "そげき"%string; "そこう"%string; "そこそこ"%string; "そざい"%string; "そしな"%string; "そせい"%string; "そせん"%string; "そそぐ"%string; "そだてる"%string; "そつう"%string; "そつえん"%string; "そっかん"%string; "そつぎょう"%string; "そっけつ"%string;
"そっこう"%string; "そっせん"%string; "そっと"%string; "そとがわ"%string; "そとづら"%string; "そなえる"%string; "そなた"%string; "そふぼ"%string; "そぼく"%string; "そぼろ"%string; "そまつ"%string; "そまる"%string; "そむく"%string; "そむりえ"%string; "そめる"%string; "そもそも"%string;
"そよかぜ"%string; "そらまめ"%string; "そろう"%string; "そんかい"%string; "そんけい"%string; "そんざい"%string; "そんしつ"%string; "そんぞく"%string; "そんちょう"%string; "ぞんび"%string; "ぞんぶん"%string; "そんみん"%string; "たあい"%string; "たいいん"%string; "たいうん"%string; "たいえき"%string;
"たいおう"%string; "だいがく"%string; "たいき"%string; "たいぐう"%string; "たいけん"%string; "たいこ"%string; "たいざい"%string; "だいじょうぶ"%string; "だいすき"%string; "たいせつ"%string; "たいそう"%string; "だいたい"%string; "たいちょう"%string; "たいてい"%string; "だいどころ"%string; "たいない"%string;
"たいねつ"%string; "たいのう"%string; "たいはん"%string; "だいひょう"%string; "たいふう"%string; "たいへん"%string; "たいほ"%string; "たいまつばな"%string; "たいみんぐ"%string; "たいむ"%string; "たいめん"%string; "たいやき"%string; "たいよう"%string; "たいら"%string; "たいりょく"%string; "たいる"%string;
"たいわん"%string; "たうえ"%string; "たえる"%string; "たおす"%string; "たおる"%string; "たおれる"%string; "たかい"%string; "たかね"%string; "たきび"%string; "たくさん"%string; "たこく"%string; "たこやき"%string; "たさい"%string; "たしざん"%string; "だじゃれ"%string; "たすける"%string;
"たずさわる"%string; "たそがれ"%string; "たたかう"%string; "たたく"%string; "ただしい"%string; "たたみ"%string; "たちばな"%string; "だっかい"%string; "だっきゃく"%string; "だっこ"%string; "だっしゅつ"%string; "だったい"%string; "たてる"%string; "たとえる"%string; "たなばた"%string; "たにん"%string;
"たぬき"%string; "たのしみ"%string; "たはつ"%string; "たぶん"%string; "たべる"%string; "たぼう"%string; "たまご"%string; "たまる"%string; "だむる"%string; "ためいき"%string; "ためす"%string; "ためる"%string; "たもつ"%string; "たやすい"%string; "たよる"%string; "たらす"%string;
"たりきほんがん"%string; "たりょう"%string; "たりる"%string; "たると"%string; "たれる"%string; "たれんと"%string; "たろっと"%string; "たわむれる"%string; "だんあつ"%string; "たんい"%string; "たんおん"%string; "たんか"%string; "たんき"%string; "たんけん"%string; "たんご"%string; "たんさん"%string;
"たんじょうび"%string; "だんせい"%string; "たんそく"%string; "たんたい"%string; "だんち"%string; "たんてい"%string; "たんとう"%string; "だんな"%string; "たんにん"%string; "だんねつ"%string; "たんのう"%string; "たんぴん"%string; "だんぼう"%string; "たんまつ"%string; "たんめい"%string; "だんれつ"%string;
"だんろ"%string; "だんわ"%string; "ちあい"%string; "ちあん"%string; "ちいき"%string; "ちいさい"%string; "ちえん"%string; "ちかい"%string; "ちから"%string; "ちきゅう"%string; "ちきん"%string; "ちけいず"%string; "ちけん"%string; "ちこく"%string; "ちさい"%string; "ちしき"%string;
"ちしりょう"%string; "ちせい"%string; "ちそう"%string; "ちたい"%string; "ちたん"%string; "ちちおや"%string; "ちつじょ"%string; "ちてき"%string; "ちてん"%string; "ちぬき"%string; "ちぬり"%string; "ちのう"%string; "ちひょう"%string; "ちへいせん"%string; "ちほう"%string; "ちまた"%string;
"ちみつ"%string; "ちみどろ"%string; "ちめいど"%string; "ちゃんこなべ"%string; "ちゅうい"%string; "ちゆりょく"%string; "ちょうし"%string; "ちょさくけん"%string; "ちらし"%string; "ちらみ"%string; "ちりがみ"%string; "ちりょう"%string; "ちるど"%string; "ちわわ"%string; "ちんたい"%string; "ちんもく"%string;
"ついか"%string; "ついたち"%string; "つうか"%string; "つうじょう"%string; "つうはん"%string; "つうわ"%string; "つかう"%string; "つかれる"%string; "つくね"%string; "つくる"%string; "つけね"%string; "つける"%string; "つごう"%string; "つたえる"%string; "つづく"%string; "つつじ"%string;
"つつむ"%string; "つとめる"%string; "つながる"%string; "つなみ"%string; "つねづね"%string; "つのる"%string; "つぶす"%string; "つまらない"%string; "つまる"%string; "つみき"%string; "つめたい"%string; "つもり"%string; "つもる"%string; "つよい"%string; "つるぼ"%string; "つるみく"%string;
"つわもの"%string; "つわり"%string; "てあし"%string; "てあて"%string; "てあみ"%string; "ていおん"%string; "ていか"%string; "ていき"%string; "ていけい"%string; "ていこく"%string; "ていさつ"%string; "ていし"%string; "ていせい"%string; "ていたい"%string; "ていど"%string; "ていねい"%string;
"ていひょう"%string; "ていへん"%string; "ていぼう"%string; "てうち"%string; "ておくれ"%string; "てきとう"%string; "てくび"%string; "でこぼこ"%string; "てさぎょう"%string; "てさげ"%string; "てすり"%string; "てそう"%string; "てちがい"%string; "てちょう"%string; "てつがく"%string; "てつづき"%string;
"でっぱ"%string; "てつぼう"%string; "てつや"%string; "でぬかえ"%string; "てぬき"%string; "てぬぐい"%string; "てのひら"%string; "てはい"%string; "てぶくろ"%string; "てふだ"%string; "てほどき"%string; "てほん"%string; "てまえ"%string; "てまきずし"%string; "てみじか"%string; "てみやげ"%string;
"てらす"%string; "てれび"%string; "てわけ"%string; "てわたし"%string; "でんあつ"%string; "てんいん"%string; "てんかい"%string; "てんき"%string; "てんぐ"%string; "てんけん"%string; "てんごく"%string; "てんさい"%string; "てんし"%string; "てんすう"%string; "でんち"%string; "てんてき"%string;
"てんとう"%string; "てんない"%string; "てんぷら"%string; "てんぼうだい"%string; "てんめつ"%string; "てんらんかい"%string; "でんりょく"%string; "でんわ"%string; "どあい"%string; "といれ"%string; "どうかん"%string; "とうきゅう"%string; "どうぐ"%string; "とうし"%string; "とうむぎ"%string; "とおい"%string;
"とおか"%string; "とおく"%string; "とおす"%string; "とおる"%string; "とかい"%string; "とかす"%string; "ときおり"%string; "ときどき"%string; "とくい"%string; "とくしゅう"%string; "とくてん"%string; "とくに"%string; "とくべつ"%string; "とけい"%string; "とける"%string; "とこや"%string;
"とさか"%string; "としょかん"%string; "とそう"%string; "とたん"%string; "とちゅう"%string; "とっきゅう"%string; "とっくん"%string; "とつぜん"%string; "とつにゅう"%string; "とどける"%string; "ととのえる"%string; "とない"%string; "となえる"%string; "となり"%string; "とのさま"%string; "とばす"%string;
"どぶがわ"%string; "とほう"%string; "とまる"%string; "とめる"%string; "ともだち"%string; "ともる"%string; "どようび"%string; "とらえる"%string; "とんかつ"%string; "どんぶり"%string; "ないかく"%string; "ないこう"%string; "ないしょ"%string; "ないす"%string; "ないせん"%string; "ないそう"%string;
"なおす"%string; "ながい"%string; "なくす"%string; "なげる"%string; "なこうど"%string; "なさけ"%string; "なたでここ"%string; "なっとう"%string; "なつやすみ"%string; "ななおし"%string; "なにごと"%string; "なにもの"%string; "なにわ"%string; "なのか"%string; "なふだ"%string; "なまいき"%string;
"なまえ"%string; "なまみ"%string; "なみだ"%string; "なめらか"%string; "なめる"%string; "なやむ"%string; "ならう"%string; "ならび"%string; "ならぶ"%string; "なれる"%string; "なわとび"%string; "なわばり"%string; "にあう"%string; "にいがた"%string; "にうけ"%string; "におい"%string;
"にかい"%string; "にがて"%string; "にきび"%string; "にくしみ"%string; "にくまん"%string; "にげる"%string; "にさんかたんそ"%string; "にしき"%string; "にせもの"%string; "にちじょう"%string; "にちようび"%string; "にっか"%string; "にっき"%string; "にっけい"%string; "にっこう"%string; "にっさん"%string;
"にっしょく"%string; "にっすう"%string; "にっせき"%string; "にってい"%string; "になう"%string; "にほん"%string; "にまめ"%string; "にもつ"%string; "にやり"%string; "にゅういん"%string; "にりんしゃ"%string; "にわとり"%string; "にんい"%string; "にんか"%string; "にんき"%string; "にんげん"%string;
"にんしき"%string; "にんずう"%string; "にんそう"%string; "にんたい"%string; "にんち"%string; "にんてい"%string; "にんにく"%string; "にんぷ"%string; "にんまり"%string; "にんむ"%string; "にんめい"%string; "にんよう"%string; "ぬいくぎ"%string; "ぬかす"%string; "ぬぐいとる"%string; "ぬぐう"%string;
"ぬくもり"%string; "ぬすむ"%string; "ぬまえび"%string; "ぬめり"%string; "ぬらす"%string; "ぬんちゃく"%string; "ねあげ"%string; "ねいき"%string; "ねいる"%string; "ねいろ"%string; "ねぐせ"%string; "ねくたい"%string; "ねくら"%string; "ねこぜ"%string; "ねこむ"%string; "ねさげ"%string;
"ねすごす"%string; "ねそべる"%string; "ねだん"%string; "ねつい"%string; "ねっしん"%string; "ねつぞう"%string; "ねったいぎょ"%string; "ねぶそく"%string; "ねふだ"%string; "ねぼう"%string; "ねほりはほり"%string; "ねまき"%string; "ねまわし"%string; "ねみみ"%string; "ねむい"%string; "ねむたい"%string;
"ねもと"%string; "ねらう"%string; "ねわざ"%string; "ねんいり"%string; "ねんおし"%string; "ねんかん"%string; "ねんきん"%string; "ねんぐ"%string; "ねんざ"%string; "ねんし"%string; "ねんちゃく"%string; "ねんど"%string; "ねんぴ"%string; "ねんぶつ"%string; "ねんまつ"%string; "ねんりょう"%string;
"ねんれい"%string; "のいず"%string; "のおづま"%string; "のがす"%string; "のきなみ"%string; "のこぎり"%string; "のこす"%string; "のこる"%string; "のせる"%string; "のぞく"%string; "のぞむ"%string; "のたまう"%string; "のちほど"%string; "のっく"%string; "のばす"%string; "のはら"%string;
"のべる"%string; "のぼる"%string; "のみもの"%string; "のやま"%string; "のらいぬ"%string; "のらねこ"%string; "のりもの"%string; "のりゆき"%string; "のれん"%string; "のんき"%string; "ばあい"%string; "はあく"%string; "ばあさん"%string; "ばいか"%string; "ばいく"%string; "はいけん"%string;
"はいご"%string; "はいしん"%string; "はいすい"%string; "はいせん"%string; "はいそう"%string; "はいち"%string; "ばいばい"%string; "はいれつ"%string; "はえる"%string; "はおる"%string; "はかい"%string; "ばかり"%string; "はかる"%string; "はくしゅ"%string; "はけん"%string; "はこぶ"%string;
"はさみ"%string; "はさん"%string; "はしご"%string; "ばしょ"%string; "はしる"%string; "はせる"%string; "ぱそこん"%string; "はそん"%string; "はたん"%string; "はちみつ"%string; "はつおん"%string; "はっかく"%string; "はづき"%string; "はっきり"%string; "はっくつ"%string; "はっけん"%string;
"はっこう"%string; "はっさん"%string; "はっしん"%string; "はったつ"%string; "はっちゅう"%string; "はってん"%string; "はっぴょう"%string; "はっぽう"%string; "はなす"%string; "はなび"%string; "はにかむ"%string; "はぶらし"%string; "はみがき"%string; "はむかう"%string; "はめつ"%string; "はやい"%string;
"はやし"%string; "はらう"%string; "はろうぃん"%string; "はわい"%string; "はんい"%string; "はんえい"%string; "はんおん"%string; "はんかく"%string; "はんきょう"%string; "ばんぐみ"%string; "はんこ"%string; "はんしゃ"%string; "はんすう"%string; "はんだん"%string; "ぱんち"%string; "ぱんつ"%string;
"はんてい"%string; "はんとし"%string; "はんのう"%string; "はんぱ"%string; "はんぶん"%string; "はんぺん"%string; "はんぼうき"%string; "はんめい"%string; "はんらん"%string; "はんろん"%string; "ひいき"%string; "ひうん"%string; "ひえる"%string; "ひかく"%string; "ひかり"%string; "ひかる"%string;
"ひかん"%string; "ひくい"%string; "ひけつ"%string; "ひこうき"%string; "ひこく"%string; "ひさい"%string; "ひさしぶり"%string; "ひさん"%string; "びじゅつかん"%string; "ひしょ"%string; "ひそか"%string; "ひそむ"%string; "ひたむき"%string; "ひだり"%string; "ひたる"%string; "ひつぎ"%string;
"ひっこし"%string; "ひっし"%string; "ひつじゅひん"%string; "ひっす"%string; "ひつぜん"%string; "ぴったり"%string; "ぴっちり"%string; "ひつよう"%string; "ひてい"%string; "ひとごみ"%string; "ひなまつり"%string; "ひなん"%string; "ひねる"%string; "ひはん"%string; "ひびく"%string; "ひひょう"%string;
"ひほう"%string; "ひまわり"%string; "ひまん"%string; "ひみつ"%string; "ひめい"%string; "ひめじし"%string; "ひやけ"%string; "ひやす"%string; "ひよう"%string; "びょうき"%string; "ひらがな"%string; "ひらく"%string; "ひりつ"%string; "ひりょう"%string; "ひるま"%string; "ひるやすみ"%string;
"ひれい"%string; "ひろい"%string; "ひろう"%string; "ひろき"%string; "ひろゆき"%string; "ひんかく"%string; "ひんけつ"%string; "ひんこん"%string; "ひんしゅ"%string; "ひんそう"%string; "ぴんち"%string; "ひんぱん"%string; "びんぼう"%string; "ふあん"%string; "ふいうち"%string; "ふうけい"%string;
"ふうせん"%string; "ぷうたろう"%string; "ふうとう"%string; "ふうふ"%string; "ふえる"%string; "ふおん"%string; "ふかい"%string; "ふきん"%string; "ふくざつ"%string; "ふくぶくろ"%string; "ふこう"%string; "ふさい"%string; "ふしぎ"%string; "ふじみ"%string; "ふすま"%string; "ふせい"%string;
"ふせぐ"%string; "ふそく"%string; "ぶたにく"%string; "ふたん"%string; "ふちょう"%string; "ふつう"%string; "ふつか"%string; "ふっかつ"%string; "ふっき"%string; "ふっこく"%string; "ぶどう"%string; "ふとる"%string; "ふとん"%string; "ふのう"%string; "ふはい"%string; "ふひょう"%string;
"ふへん"%string; "ふまん"%string; "ふみん"%string; "ふめつ"%string; "ふめん"%string; "ふよう"%string; "ふりこ"%string; "ふりる"%string; "ふるい"%string; "ふんいき"%string; "ぶんがく"%string; "ぶんぐ"%string; "ふんしつ"%string; "ぶんせき"%string; "ふんそう"%string; "ぶんぽう"%string;
"へいあん"%string; "へいおん"%string; "へいがい"%string; "へいき"%string; "へいげん"%string; "へいこう"%string; "へいさ"%string; "へいしゃ"%string; "へいせつ"%string; "へいそ"%string; "へいたく"%string; "へいてん"%string; "へいねつ"%string; "へいわ"%string; "へきが"%string; "へこむ"%string;
"べにいろ"%string; "べにしょうが"%string; "へらす"%string; "へんかん"%string; "べんきょう"%string; "べんごし"%string; "へんさい"%string; "へんたい"%string; "べんり"%string; "ほあん"%string; "ほいく"%string; "ぼうぎょ"%string; "ほうこく"%string; "ほうそう"%string; "ほうほう"%string; "ほうもん"%string;
"ほうりつ"%string; "ほえる"%string; "ほおん"%string; "ほかん"%string; "ほきょう"%string; "ぼきん"%string; "ほくろ"%string; "ほけつ"%string; "ほけん"%string; "ほこう"%string; "ほこる"%string; "ほしい"%string; "ほしつ"%string; "ほしゅ"%string; "ほしょう"%string; "ほせい"%string;
"ほそい"%string; "ほそく"%string; "ほたて"%string; "ほたる"%string; "ぽちぶくろ"%string; "ほっきょく"%string; "ほっさ"%string; "ほったん"%string; "ほとんど"%string; "ほめる"%string; "ほんい"%string; "ほんき"%string; "ほんけ"%string; "ほんしつ"%string; "ほんやく"%string; "まいにち"%string;
"まかい"%string; "まかせる"%string; "まがる"%string; "まける"%string; "まこと"%string; "まさつ"%string; "まじめ"%string; "ますく"%string; "まぜる"%string; "まつり"%string; "まとめ"%string; "まなぶ"%string; "まぬけ"%string; "まねく"%string; "まほう"%string; "まもる"%string;
"まゆげ"%string; "まよう"%string; "まろやか"%string; "まわす"%string; "まわり"%string; "まわる"%string; "まんが"%string; "まんきつ"%string; "まんぞく"%string; "まんなか"%string; "みいら"%string; "みうち"%string; "みえる"%string; "みがく"%string; "みかた"%string; "みかん"%string;
"みけん"%string; "みこん"%string; "みじかい"%string; "みすい"%string; "みすえる"%string; "みせる"%string; "みっか"%string; "みつかる"%string; "みつける"%string; "みてい"%string; "みとめる"%string; "みなと"%string; "みなみかさい"%string; "みねらる"%string; "みのう"%string; "みのがす"%string;
"みほん"%string; "みもと"%string; "みやげ"%string; "みらい"%string; "みりょく"%string; "みわく"%string; "みんか"%string; "みんぞく"%string; "むいか"%string; "むえき"%string; "むえん"%string; "むかい"%string; "むかう"%string; "むかえ"%string; "むかし"%string; "むぎちゃ"%string;
"むける"%string; "むげん"%string; "むさぼる"%string; "むしあつい"%string; "むしば"%string; "むじゅん"%string; "むしろ"%string; "むすう"%string; "むすこ"%string; "むすぶ"%string; "むすめ"%string; "むせる"%string; "むせん"%string; "むちゅう"%string; "むなしい"%string; "むのう"%string;
"むやみ"%string; "むよう"%string; "むらさき"%string; "むりょう"%string; "むろん"%string; "めいあん"%string; "めいうん"%string; "めいえん"%string; "めいかく"%string; "めいきょく"%string; "めいさい"%string; "めいし"%string; "めいそう"%string; "めいぶつ"%string; "めいれい"%string; "めいわく"%string;
"めぐまれる"%string; "めざす"%string; "めした"%string; "めずらしい"%string; "めだつ"%string; "めまい"%string; "めやす"%string; "めんきょ"%string; "めんせき"%string; "めんどう"%string; "もうしあげる"%string; "もうどうけん"%string; "もえる"%string; "もくし"%string; "もくてき"%string; "もくようび"%string;
"もちろん"%string; "もどる"%string; "もらう"%string; "もんく"%string; "もんだい"%string; "やおや"%string; "やける"%string; "やさい"%string; "やさしい"%string; "やすい"%string; "やすたろう"%string; "やすみ"%string; "やせる"%string; "やそう"%string; "やたい"%string; "やちん"%string;
"やっと"%string; "やっぱり"%string; "やぶる"%string; "やめる"%string; "ややこしい"%string; "やよい"%string; "やわらかい"%string; "ゆうき"%string; "ゆうびんきょく"%string; "ゆうべ"%string; "ゆうめい"%string; "ゆけつ"%string; "ゆしゅつ"%string; "ゆせん"%string; "ゆそう"%string; "ゆたか"%string;
"ゆちゃく"%string; "ゆでる"%string; "ゆにゅう"%string; "ゆびわ"%string; "ゆらい"%string; "ゆれる"%string; "ようい"%string; "ようか"%string; "ようきゅう"%string; "ようじ"%string; "ようす"%string; "ようちえん"%string; "よかぜ"%string; "よかん"%string; "よきん"%string; "よくせい"%string;
"よくぼう"%string; "よけい"%string; "よごれる"%string; "よさん"%string; "よしゅう"%string; "よそう"%string; "よそく"%string; "よっか"%string; "よてい"%string; "よどがわく"%string; "よねつ"%string; "よやく"%string; "よゆう"%string; "よろこぶ"%string; "よろしい"%string; "らいう"%string;
"らくがき"%string; "らくご"%string; "らくさつ"%string; "らくだ"%string; "らしんばん"%string; "らせん"%string; "らぞく"%string; "らたい"%string; "らっか"%string; "られつ"%string; "りえき"%string; "りかい"%string; "りきさく"%string; "りきせつ"%string; "りくぐん"%string; "りくつ"%string;
"りけん"%string; "りこう"%string; "りせい"%string; "りそう"%string; "りそく"%string; "りてん"%string; "りねん"%string; "りゆう"%string; "りゅうがく"%string; "りよう"%string; "りょうり"%string; "りょかん"%string; "りょくちゃ"%string; "りょこう"%string; "りりく"%string; "りれき"%string;
"りろん"%string; "りんご"%string; "るいけい"%string; "るいさい"%string; "るいじ"%string; "るいせき"%string; "るすばん"%string; "るりがわら"%string; "れいかん"%string; "れいぎ"%string; "れいせい"%string; "れいぞうこ"%string; "れいとう"%string; "れいぼう"%string; "れきし"%string; "れきだい"%string;
"れんあい"%string; "れんけい"%string; "れんこん"%string; "れんさい"%string; "れんしゅう"%string; "れんぞく"%string; "れんらく"%string; "ろうか"%string; "ろうご"%string; "ろうじん"%string; "ろうそく"%string; "ろくが"%string; "ろこつ"%string; "ろじうら"%string; "ろしゅつ"%string; "ろせん"%string;
"ろてん"%string; "ろめん"%string; "ろれつ"%string; "ろんぎ"%string; "ろんぱ"%string; "ろんぶん"%string; "ろんり"%string; "わかす"%string; "わかめ"%string; "わかやま"%string; "わかれる"%string; "わしつ"%string; "わじまし"%string; "わすれもの"%string; "わらう"%string; "われる"%string].
