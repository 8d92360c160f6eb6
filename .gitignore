*.vo
*.vos
*.vok
*.glob
*.aux
.*.aux
.lia.cache
.nia.cache
.coqdeps.d
Makefile
Makefile.conf
.Makefile.d
.nra.cache
