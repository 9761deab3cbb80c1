*.vo
*.vos
*.vok
*.glob
*.aux
.lia.cache
.nia.cache
Makefile
Makefile.conf
.Makefile.d
.*.aux
.nra.cache
.lia.cache
.nia.cache
