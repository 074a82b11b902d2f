(** The irregular word lists of scrappybara/data/english, as they are. Written by tools/mkdata.py. *)
From Coq Require Import Ascii String.
From Coq Require Import List NArith.
From Verif Require Import PyBase MFiles.

(** data/english/irregular_preterits.txt *)
Definition irregular_preterits_txt : str := lit "abode	abide
arose	arise
ate	eat
awoke	awake
beat	beat
became	become
befell	befall
began	begin
begot	beget
beheld	behold
bent	bend
bereft	bereave
beset	beset
besought	beseech
bespoke	bespeak
bestrode	bestride
bet	bet
bid	bid
bit	bite
bled	bleed
blew	blow
bore	bear
bought	buy
bound	bind
bred	breed
broke	break
brought	bring
built	build
burnt	burn
burst	burst
came	come
cast	cast
caught	catch
chose	choose
clung	cling
crept	creep
cut	cut
dealt	deal
did	do
drank	drink
dreamt	dream
drew	draw
drove	drive
dug	dig
dwelt	dwell
fed	feed
fell	fall
felt	feel
fled	flee
flew	fly
flung	fling
forbade	forbid
foresaw	foresee
foretold	foretell
forgave	forgive
forgot	forget
forsook	forsake
fought	fight
found	find
froze	freeze
gave	give
got	get
grew	grow
ground	grind
had	have
heard	hear
held	hold
hid	hide
hit	hit
hung	hang
hurt	hurt
interwove	interweave
kept	keep
knelt	kneel
knew	know
laid	lay
leant	lean
leapt	leap
learnt	learn
led	lead
left	leave
lent	lend
let	let
lost	lose
made	make
meant	mean
met	meet
mistook	mistake
overheard	overhear
oversaw	oversee
overslept	oversleep
paid	pay
put	put
ran	run
rang	ring
read	read
rent	rend
rid	rid
rode	ride
rose	rise
said	say
sang	sing
sank	sink
sat	sit
saw	see
sent	send
set	set
shed	shed
shit	shit
shod	shoe
shone	shine
shook	shake
shot	shoot
shrank	shrink
shrove	shrive
shut	shut
slept	sleep
slew	slay
slid	slide
slit	slit
slung	sling
slunk	slink
smelt	smell
smote	smite
sold	sell
sought	seek
spat	spit
sped	speed
spent	spend
split	split
spoilt	spoil
spoke	speak
sprang	spring
spread	spread
spun	spin
stank	stink
stole	steal
stood	stand
strode	stride
strove	strive
struck	strike
strung	string
stuck	stick
stung	sting
swam	swim
swept	sweep
swore	swear
swung	swing
taught	teach
thought	think
threw	throw
thrust	thrust
told	tell
took	take
tore	tear
trod	tread
understood	understand
undertook	undertake
undid	undo
upheld	uphold
upset	upset
was	be
went	go
wept	weep
were	be
withdrew	withdraw
withheld	withhold
withstood	withstand
woke	wake
won	win
wore	wear
wound	wind
wove	weave
wrote	write
wrung	wring
".

(** data/english/irregular_past_participles.txt *)
Definition irregular_past_participles_txt : str := lit "abode	abide
arisen	arise
awoken	awake
beaten	beat
become	become
been	be
befallen	befall
begotten	beget
begun	begin
beheld	behold
bent	bend
bereft	bereave
beset	beset
besought	beseech
bespoken	bespeak
bestridden	bestride
bet	bet
bid	bid
bitten	bite
bled	bleed
blown	blow
born	bear
bought	buy
bound	bind
bred	breed
broadcast	broadcast
broken	break
brought	bring
built	build
burnt	burn
burst	burst
cast	cast
caught	catch
chosen	choose
clung	cling
come	come
cost	cost
crept	creep
cut	cut
dealt	deal
done	do
drawn	draw
dreamt	dream
driven	drive
drunk	drink
dug	dig
dwelt	dwell
eaten	eat
fallen	fall
fed	feed
felt	feel
fled	flee
flown	fly
flung	fling
forbidden	forbid
forecast	forecast
foreseen	foresee
foretold	foretell
forgiven	forgive
forgotten	forget
forsaken	forsake
fought	fight
found	find
frozen	freeze
given	give
gone	go
got	get
ground	grind
grown	grow
had	have
heard	hear
held	hold
hidden	hide
hit	hit
hung	hang
hurt	hurt
interwoven	interweave
kept	keep
knelt	kneel
known	know
laid	lay
leant	lean
leapt	leap
learnt	learn
led	lead
left	leave
lent	lend
let	let
lost	lose
made	make
meant	mean
met	meet
mistaken	mistake
overheard	overhear
overseen	oversee
overslept	oversleep
paid	pay
proven	prove
put	put
read	read
rent	rend
rid	rid
ridden	ride
risen	rise
run	run
rung	ring
said	say
sat	sit
seen	see
sent	send
set	set
shaken	shake
shed	shed
shit	shit
shod	shoe
shone	shine
shot	shoot
shown	show
shriven	shrive
shrunk	shrink
shut	shut
slain	slay
slept	sleep
slid	slide
slit	slit
slung	sling
slunk	slink
smelt	smell
smitten	smite
sold	sell
sought	seek
spat	spit
sped	speed
spent	spend
split	split
spoilt	spoil
spoken	speak
spread	spread
sprung	spring
spun	spin
stolen	steal
stood	stand
stridden	stride
striven	strive
struck	strike
strung	string
stuck	stick
stung	sting
stunk	stink
sung	sing
sunk	sink
swept	sweep
sworn	swear
swum	swim
swung	swing
taken	take
taught	teach
thought	think
thrown	throw
thrust	thrust
told	tell
torn	tear
trodden	tread
understood	understand
undertaken	undertake
undone	undo
upheld	uphold
upset	upset
wept	weep
withdrawn	withdraw
withheld	withhold
withstood	withstand
woken	wake
won	win
worn	wear
wound	wind
woven	weave
written	write
wrung	wring
".

(** data/english/irregular_plurals.txt *)
Definition irregular_plurals_txt : str := lit "booklice	booklouse
children	child
deer	deer
dice	dice
feet	foot
geese	goose
hot dogs	hot dog
lice	louse
men	man
mice	mouse
moose	moose
oxen	ox
people	people
sealice	sealouse
series	series
sheep	sheep
shrimp	shrimp
species	species
swine	swine
teeth	tooth
trout	trout
vortices	vortex
".

(** data/english/irregular_comparatives.txt *)
Definition irregular_comparatives_txt : str := lit "better	good
farther	far
further	far
worse	bad
".

(** data/english/irregular_superlatives.txt *)
Definition irregular_superlatives_txt : str := lit "best	good
farthest	far
furthest	far
worst	bad
".

(** data/english, with the lists of nouns and of adjectives left open: load_dict_from_txt_file and load_set_from_txt_file are called on
    these files in pipeline/logic_pipeline.py:24-30 *)
Definition shipped (nouns adjectives : str) : english_files := {|
  f_preterits := irregular_preterits_txt; f_past_participles := irregular_past_participles_txt; f_plurals := irregular_plurals_txt;
  f_comparatives := irregular_comparatives_txt; f_superlatives := irregular_superlatives_txt; f_nouns := nouns; f_adjectives := adjectives |}.
