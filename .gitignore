*.aux
*.glob
*.vo
*.vok
*.vos
.*.cache
.Makefile.d
.lia.cache
.nia.cache
Makefile
Makefile.conf
